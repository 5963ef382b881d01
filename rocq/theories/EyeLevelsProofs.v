(** Lemmas about the levels of an eye diagram. *)
From Coq Require Import ZArith Reals Bool List Lia Lra Permutation Sorted.
Import ListNotations.
From Verif Require Import Base Num RBool StatsModel StatsSpec StatsProofs UncertainProofs MathModel MathSpec MathProofs GaussProofs GaussProps EyeSpec EyeRunModel EyeRunSpec EyeRunProofs.
From Verif Require CdrSpec.
Local Open Scope R_scope.
Local Open Scope result_scope.

(** ** Other units *)
Definition aff (a b : R) (v : R) : R := a * v + b.
Lemma arg_best_map {X Y} (f : X -> Y) better better' l : (forall x y, better' (f x) (f y) = better x y) -> arg_best better' (map f l) = arg_best better l.
Proof.
  intros H. destruct l as [|x l]; [reflexivity|]. cbn [map arg_best]. f_equal. generalize 1%nat as i. generalize 0%nat as bi. revert x. induction l as [|y l IH]; intros x bi i; [reflexivity|]. cbn [map best_from]. rewrite H. destruct (better y x); apply IH.
Qed.
Definition ext_scale (a : R) (v : ext) : ext := match v with Fin x => Fin (x / a) | PInf => PInf end.
Lemma ext_scale_add a u v : ext_scale a (ext_add u v) = ext_add (ext_scale a u) (ext_scale a v).
Proof. destruct u, v; cbn; try reflexivity. f_equal. unfold Rdiv. ring. Qed.
Lemma ext_scale_lt a u v : 0 < a -> ext_lt (ext_scale a u) (ext_scale a v) = ext_lt u v.
Proof.
  intros A. destruct u as [x|], v as [y|]; cbn; try reflexivity. pose proof (Rinv_0_lt_compat a A) as IA. destruct (Rltb x y) eqn:E; [apply Rltb_true in E; apply Rltb_true|apply Rltb_false in E; apply Rltb_false]; unfold Rdiv; [apply Rmult_lt_compat_r; assumption|apply Rmult_le_compat_r; lra].
Qed.
Lemma set_nth_map {X Y} (f : X -> Y) l i v : set_nth (map f l) i (f v) = option_map (map f) (set_nth l i v).
Proof. revert i. induction l as [|x l IH]; intros [|i]; try reflexivity. cbn [map set_nth]. rewrite IH. destruct (set_nth l i v); reflexivity. Qed.
Lemma bell_move a b g t : 0 < a -> stddev g <> 0 -> bell (moved a b g) (aff a b t) = bell g t / a.
Proof.
  intros A S. unfold bell, moved, aff. cbn [amplitude mean stddev]. replace ((a * t + b - (a * mean g + b)) / (a * stddev g)) with ((t - mean g) / stddev g) by (field; lra).
  replace (2 * PI * (a * stddev g) ^ 2) with (a ^ 2 * (2 * PI * stddev g ^ 2)) by ring. pose proof PI_RGT_0 as PP. assert (S2 : 0 < stddev g ^ 2) by (apply Rlt_0_sqr in S; unfold Rsqr in S; nra).
  rewrite sqrt_mult by nra. rewrite sqrt_pow2 by lra. assert (Q : 0 < sqrt (2 * PI * stddev g ^ 2)) by (apply sqrt_lt_R0; nra). field. lra.
Qed.
Lemma compute_array_move a b g x : 0 < a -> compute_array (moved a b g) (map (aff a b) x) = (y <- compute_array g x ;; Ok (map (ext_scale a) y)).
Proof.
  intros A. unfold compute_array. cbn [stddev moved mean]. destruct (Reqb (stddev g) 0) eqn:E; [apply Reqb_true in E | apply Reqb_false in E].
  - rewrite (proj2 (Reqb_true (a * stddev g) 0)) by (rewrite E; ring). rewrite !map_map.
    assert (Q : arg_best Rltb (map (fun t => Rabs (aff a b t - (a * mean g + b))) x) = arg_best Rltb (map (fun t => Rabs (t - mean g)) x)).
    { rewrite <- (arg_best_map (fun v => a * v) Rltb Rltb (map (fun t => Rabs (t - mean g)) x)); [rewrite map_map|intros u v; destruct (Rltb u v) eqn:L; [apply Rltb_true in L; apply Rltb_true; apply Rmult_lt_compat_l; assumption|apply Rltb_false in L; apply Rltb_false; apply Rmult_le_compat_l; lra]].
      f_equal. apply map_ext. intros t. unfold aff. replace (a * t + b - (a * mean g + b)) with (a * (t - mean g)) by ring. rewrite Rabs_mult, (Rabs_right a) by lra. reflexivity. }
    match goal with |- bind (arg_best _ ?l) _ = _ => change (arg_best Rltb l) with (arg_best Rltb (map (fun t => Rabs (aff a b t - (a * mean g + b))) x)) end. rewrite Q. clear Q. destruct (arg_best Rltb (map (fun t => Rabs (t - mean g)) x)) as [i|]; [|reflexivity]. cbn [bind]. assert (M : map (fun _ : R => Fin 0) x = map (ext_scale a) (map (fun _ => Fin 0) x)) by (rewrite map_map; apply map_ext; intros; cbn; f_equal; field; lra).
    rewrite M at 1. change PInf with (ext_scale a PInf) at 1. rewrite set_nth_map. destruct (set_nth _ i PInf); reflexivity.
  - rewrite (proj2 (Reqb_false (a * stddev g) 0)) by (intros Q; apply Rmult_integral in Q; lra). cbn [bind]. f_equal. rewrite !map_map. apply map_ext. intros t. cbn. f_equal. apply bell_move; assumption.
Qed.
Lemma mix_array_move a b gs x : 0 < a -> mix_array (map (moved a b) gs) (map (aff a b) x) = (y <- mix_array gs x ;; Ok (map (ext_scale a) y)).
Proof.
  intros A. unfold mix_array. assert (M : mapM (fun g => compute_array g (map (aff a b) x)) (map (moved a b) gs) = (ys <- mapM (fun g => compute_array g x) gs ;; Ok (map (map (ext_scale a)) ys))).
  { induction gs as [|g gs IH]; [reflexivity|]. cbn [map mapM]. rewrite compute_array_move by exact A. destruct (compute_array g x) as [y|]; [|reflexivity]. cbn [bind]. rewrite IH. destruct (mapM _ gs); reflexivity. }
  rewrite M. destruct (mapM _ gs) as [ys|]; [|reflexivity]. cbn [bind]. f_equal.
  assert (Z : map (fun _ : R => Fin 0) (map (aff a b) x) = map (ext_scale a) (map (fun _ => Fin 0) x)) by (rewrite !map_map; apply map_ext; intros; cbn; f_equal; field; lra). rewrite Z. generalize (map (fun _ : R => Fin 0) x) as acc. clear Z M.
  induction ys as [|y ys IH]; intros acc; [reflexivity|]. cbn [map fold_left]. rewrite <- IH. f_equal. clear. revert y. induction acc as [|u acc IH]; intros [|v y]; try reflexivity. cbn [map combine fst snd]. rewrite ext_scale_add. f_equal. apply IH.
Qed.
Lemma linspace_move a b lo hi n : (2 <= n)%nat -> linspace (aff a b lo) (aff a b hi) n = map (aff a b) (linspace lo hi n).
Proof.
  intros N. rewrite !linspace_points by exact N. rewrite map_map. apply map_ext. intros i. unfold aff. assert (INR (n - 1) <> 0) by (apply not_0_INR; lia). field. assumption.
Qed.
Lemma peak_move a b gs lo hi : 0 < a -> peak (map (moved a b) gs) (aff a b lo) (aff a b hi) = (x <- peak gs lo hi ;; Ok (aff a b x)).
Proof.
  intros A. unfold peak. remember 1000%nat as k eqn:K. assert (K2 : (2 <= k)%nat) by lia. clear K. rewrite linspace_move by exact K2. rewrite mix_array_move by exact A. destruct (mix_array _ _) as [y|]; [|reflexivity]. cbn [bind].
  rewrite (arg_best_map (ext_scale a) (fun u v => ext_lt v u)) by (intros; apply ext_scale_lt; exact A). destruct (arg_best _ y) as [i|]; [|reflexivity]. cbn [bind]. unfold get. rewrite nth_error_map. destruct (nth_error _ i); reflexivity.
Qed.
Lemma center_move a b gs : 0 < a -> center (map (moved a b) gs) = (x <- center gs ;; Ok (aff a b x)).
Proof.
  intros A. destruct gs as [|g [|h gs]]; [reflexivity|reflexivity|]. set (l := g :: h :: gs).
  assert (C : forall k, (2 <= length k)%nat -> center k = (x_min <- py_min (map mean k) ;; x_max <- py_max (map mean k) ;; x <- peak k x_min x_max ;; peak k (x - (x_max - x_min) / 1000) (x + (x_max - x_min) / 1000))) by (intros [|p [|q k]] L; cbn in L; try lia; reflexivity).
  rewrite !C by (unfold l; rewrite ?map_length; cbn; lia). assert (M : map mean (map (moved a b) l) = map (fun v => a * v + b) (map mean l)) by (rewrite !map_map; reflexivity). rewrite M, py_min_move, py_max_move by exact A. clearbody l.
  destruct (py_min (map mean l)) as [lo|]; [|reflexivity]. cbn [bind]. destruct (py_max (map mean l)) as [hi|]; [|reflexivity]. cbn [bind]. change (a * lo + b) with (aff a b lo). change (a * hi + b) with (aff a b hi). rewrite peak_move by exact A. destruct (peak l lo hi) as [x|]; [|reflexivity]. cbn [bind].
  replace (aff a b x - (aff a b hi - aff a b lo) / 1000) with (aff a b (x - (hi - lo) / 1000)) by (unfold aff; field). replace (aff a b x + (aff a b hi - aff a b lo) / 1000) with (aff a b (x + (hi - lo) / 1000)) by (unfold aff; field). apply peak_move. exact A.
Qed.
(** Histograms *)
Lemma Rltb_aff a b u v : 0 < a -> Rltb (aff a b u) (aff a b v) = Rltb u v.
Proof. intros A. unfold aff. destruct (Rltb u v) eqn:E; [apply Rltb_true in E; apply Rltb_true; assert (a * u < a * v) by (apply Rmult_lt_compat_l; assumption); lra|apply Rltb_false in E; apply Rltb_false; assert (a * v <= a * u) by (apply Rmult_le_compat_l; lra); lra]. Qed.
Lemma Rleb_aff a b u v : 0 < a -> Rleb (aff a b u) (aff a b v) = Rleb u v.
Proof. intros A. unfold aff. destruct (Rleb u v) eqn:E; [apply Rleb_true in E; apply Rleb_true; assert (a * u <= a * v) by (apply Rmult_le_compat_l; lra); lra|apply Rleb_false in E; apply Rleb_false; assert (a * v < a * u) by (apply Rmult_lt_compat_l; lra); lra]. Qed.
Lemma filter_map {X Y} (f : X -> Y) p l : filter p (map f l) = map f (filter (fun x => p (f x)) l).
Proof. induction l as [|x l IH]; [reflexivity|]. cbn [map filter]. destruct (p (f x)); cbn [map]; rewrite IH; reflexivity. Qed.
Lemma count_if_map (f : R -> R) p q y : (forall x, p (f x) = q x) -> count_if p (map f y) = count_if q y.
Proof. intros H. unfold count_if. rewrite filter_map, map_length. f_equal. f_equal. apply filter_ext. exact H. Qed.
Lemma histogram_move a b y e : 0 < a -> histogram (map (aff a b) y) (map (aff a b) e) = histogram y e.
Proof.
  intros A. unfold histogram. assert (O : edges_ok (map (aff a b) e) = edges_ok e).
  { induction e as [|u [|v e] IH]; try reflexivity. change (negb (Rltb (aff a b v) (aff a b u)) && edges_ok (map (aff a b) (v :: e)) = negb (Rltb v u) && edges_ok (v :: e)). rewrite IH, Rltb_aff by exact A. reflexivity. }
  rewrite O. destruct (edges_ok e); [|reflexivity]. f_equal. f_equal. clear O. induction e as [|u [|v e] IH]; [reflexivity| |].
  - cbn [map cumulative]. f_equal. apply count_if_map. intros x. apply Rleb_aff. exact A.
  - change (count_if (fun x => Rltb x (aff a b u)) (map (aff a b) y) :: cumulative (map (aff a b) y) (map (aff a b) (v :: e)) = count_if (fun x => Rltb x u) y :: cumulative y (v :: e)). rewrite IH. f_equal. apply count_if_map. intros x. apply Rltb_aff. exact A.
Qed.
Lemma centres_move a b (e : list R) : centres (map (aff a b) e) = map (aff a b) (centres e).
Proof. induction e as [|u [|v e] IH]; try reflexivity. change ((aff a b u + aff a b v) / 2 :: centres (map (aff a b) (v :: e)) = map (aff a b) ((u + v) / 2 :: centres (v :: e))). rewrite IH. cbn [map]. f_equal. unfold aff. field. Qed.
Lemma replicate_move a b fl sc counts (bins : list R) : replicate_bins fl sc counts (map (aff a b) bins) = map (aff a b) (replicate_bins fl sc counts bins).
Proof.
  unfold replicate_bins. revert bins. induction counts as [|c counts IH]; intros [|v bins]; try reflexivity. cbn [map combine flat_map fst snd]. rewrite map_app, IH. f_equal. generalize (Z.to_nat (fl (nofZ c *. sc)%num)) as n. induction n as [|n IHn]; [reflexivity|]. cbn [repeat map]. rewrite IHn. reflexivity.
Qed.
Definition constant (y : list R) : Prop := exists c, forall v, In v y -> v = c.
Lemma linear_range_move a b frac y : 0 < a -> ~ constant y -> linear_range frac (map (aff a b) y) = (r <- linear_range frac y ;; Ok (aff a b (fst r), aff a b (snd r))).
Proof.
  intros A N. unfold linear_range. change (map (aff a b) y) with (map (fun v => a * v + b) y). rewrite py_min_move, py_max_move by exact A. destruct y as [|v y]; [reflexivity|]. destruct (py_min_R (v :: y) ltac:(discriminate)) as (lo & -> & IL & BL). destruct (py_max_R (v :: y) ltac:(discriminate)) as (hi & -> & IH & BH). cbn [bind].
  assert (D : lo <> hi) by (intros ->; apply N; exists hi; intros w W; specialize (BL w W); specialize (BH w W); lra). cbn [neq NumR]. rewrite (proj2 (Reqb_false lo hi) D). rewrite (proj2 (Reqb_false (a * lo + b) (a * hi + b))) by (intros Q; apply D; apply (Rmult_eq_reg_l a); lra). reflexivity.
Qed.
Lemma downsample_move a b frac y n_max k : 0 < a -> ~ constant y -> (1 <= k)%nat -> downsample Int_part frac (map (aff a b) y) n_max (Some k) = (r <- downsample Int_part frac y n_max (Some k) ;; Ok (map (aff a b) r)).
Proof.
  intros A N K. destruct y as [|v y]; [destruct N; exists 0; intros w []|]. rewrite !downsample_scale by discriminate. cbv zeta. rewrite map_length. destruct (Rleb _ n_max); [reflexivity|].
  unfold bin_linear. rewrite linear_range_move by assumption. destruct (linear_range frac (v :: y)) as [r|]; [|reflexivity]. cbn [bind fst snd]. rewrite linspace_move by lia. rewrite histogram_move by exact A. destruct (histogram _ _) as [c|]; [|reflexivity]. cbn [bind fst snd]. rewrite centres_move, replicate_move. reflexivity.
Qed.
Lemma constant_move a b y : 0 < a -> constant y -> constant (map (aff a b) y).
Proof. intros A (c & H). exists (aff a b c). intros v I. apply in_map_iff in I. destruct I as (u & <- & U). rewrite (H u U). reflexivity. Qed.
Lemma constant_move_inv a b y : 0 < a -> constant (map (aff a b) y) -> constant y.
Proof.
  intros A (c & H). exists ((c - b) / a). intros v I. specialize (H (aff a b v) (in_map _ _ _ I)). unfold aff in H. assert (E : a * v = c - b) by lra. rewrite <- E. field. lra.
Qed.
Lemma every_map {X Y} (f : X -> Y) k l : every k (map f l) = map f (every k l).
Proof.
  unfold every. rewrite map_length. generalize (length l) as n. intros n.
  assert (G : forall n s, map snd (filter (fun p => (fst p mod k =? 0)%nat) (combine (seq s n) (map f l))) = map f (map snd (filter (fun p => (fst p mod k =? 0)%nat) (combine (seq s n) l)))).
  { clear n. induction l as [|x l IH]; intros n s; [destruct n; reflexivity|]. destruct n as [|n]; [reflexivity|]. cbn [seq map combine filter fst]. destruct (s mod k =? 0)%nat; cbn [map snd]; rewrite IH; reflexivity. }
  apply G.
Qed.
Lemma every_In {X} k (l : list X) x : In x (every k l) -> In x l.
Proof. unfold every. intros I. apply in_map_iff in I. destruct I as ([i y] & <- & I). apply filter_In in I. destruct I as (I & _). exact (in_combine_r _ _ _ _ I). Qed.
(** Binning a constant gives a constant. *)
Lemma downsample_constant frac y n_max k out : 0 < frac -> (1 <= k)%nat -> constant y -> downsample Int_part frac y n_max (Some k) = Ok out -> constant out.
Proof.
  intros F K (c & H) E. destruct y as [|v y]; [unfold downsample in E; unfold py_div in E; cbn in E; destruct (Reqb 0 0) eqn:Z; [discriminate|apply Reqb_false in Z; congruence]|]. rewrite downsample_scale in E by discriminate. cbv zeta in E. destruct (Rleb _ n_max); [injection E as <-; exists c; exact H|].
  set (l := v :: y) in *  . destruct (bin_linear_spec frac l k F ltac:(discriminate) K) as (counts & edges & lo & hi & B & LE & LC & _ & _ & _ & _ & _ & CN & UN & _). rewrite B in E. cbn [bind fst snd] in E. injection E as <-.
  destruct (UN v (or_introl eq_refl)) as (i & I1 & I2). destruct (nth_error (centres edges) i) as [ci|] eqn:CI.
  - exists ci. intros w W. unfold replicate_bins in W. apply in_flat_map in W. destruct W as ([n u] & P & W). cbn [fst snd] in W. apply In_nth_error in P. destruct P as (j & P).
    assert (PC : nth_error counts j = Some n /\ nth_error (centres edges) j = Some u). { clear -P. revert counts edges j P. intros counts edges. generalize (centres edges) as cs. induction counts as [|x counts IH]; intros [|z cs] [|j] P; try discriminate; cbn in P |- * ; [injection P as <- <-; split; reflexivity|]. exact (IH cs j P). }
    destruct PC as (PC & PU). assert (J : (j < k)%nat) by (rewrite <- LC; apply nth_error_Some; rewrite PC; discriminate). rewrite (CN j J) in PC. injection PC as <-.
    assert (JI : j = i). { destruct (in_bin edges j c) eqn:Q; [symmetry; apply I2; rewrite (H v (or_introl eq_refl)); exact Q|]. exfalso. assert (Z : count_if (in_bin edges j) l = 0%Z). { unfold count_if. assert (FE : filter (in_bin edges j) l = []) by (clear -H Q; induction l as [|x l IH]; [reflexivity|]; cbn [filter]; rewrite (H x (or_introl eq_refl)), Q; apply IH; intros w W; apply H; right; exact W). rewrite FE. reflexivity. }
      rewrite Z in W. cbn in W. rewrite Rmult_0_l in W. assert (IP : Int_part 0 = 0%Z) by (destruct (base_Int_part 0); assert (-1 < Int_part 0 < 1)%Z by (split; apply lt_IZR; lra); lia). rewrite IP in W. destruct W. }
    subst j. rewrite CI in PU. injection PU as <-. apply repeat_spec in W. exact W.
  - exfalso. apply nth_error_None in CI. rewrite centres_length, LE in CI. destruct (nth_error counts i) as [n|] eqn:NC.
    + assert (i < k)%nat by (rewrite <- LC; apply nth_error_Some; rewrite NC; discriminate). lia.
    + unfold in_bin in I1. assert (Q : nth_error edges (i + 1) = None) by (apply nth_error_None; lia). rewrite Q in I1. destruct (nth_error edges i); discriminate.
Qed.

(** ** Levels *)
Section Levels.
Variable round6 : R -> R.
Variable fit : nat -> list R -> result (list (R * R * R)).
Variable aic : list (R * R * R) -> list R -> R.
Notation runner := (runner_levels round6 fit aic).
Definition thinned (y : list R) (n_max : option R) : result (list R) :=
  match n_max with
  | None => Ok y
  | Some n_max =>
      ratio <- py_div (INR (length y)) n_max ;;
      let y := if Rltb 10 ratio then every (Nat.max 1 (Z.to_nat (truncR (ratio / 2)))) y else y in
      downsample Int_part (5 / 100) y n_max (Some 500%nat)
  end.
Definition split_levels (y : list R) : result (uvalue * uvalue) :=
  y_min <- py_min y ;;
  y_max <- py_max y ;;
  let y_mid := (y_min + y_max) / 2 in
  let values_0 := filter (fun v => Rltb v y_mid) y in
  let values_1 := filter (fun v => Rltb y_mid v) y in
  let dev l := match usamples l with Some u => StatsModel.stddev u | None => 0 end in
  fit_0 <- fit_mix_samples round6 fit aic values_0 2 ;;
  fit_1 <- fit_mix_samples round6 fit aic values_1 2 ;;
  y_0 <- center fit_0 ;;
  y_1 <- center fit_1 ;;
  Ok (UV y_0 (dev values_0), UV y_1 (dev values_1)).
Lemma runner_eq y n_max : runner y n_max = (y <- thinned y n_max ;; split_levels y).
Proof. reflexivity. Qed.
Definition umove (a b : R) (u : uvalue) : uvalue := UV (aff a b (value u)) (a * StatsModel.stddev u).
Lemma dev_move a b l : 0 < a -> match usamples (map (aff a b) l) with Some u => StatsModel.stddev u | None => 0 end = a * match usamples l with Some u => StatsModel.stddev u | None => 0 end.
Proof.
  intros A. destruct (usamples l) as [u|] eqn:U.
  - change (map (aff a b) l) with (map (fun e => a * e + b) l). rewrite (usamples_affine a b l u U). unfold uadd, umul. cbn. rewrite Rabs_right by lra. ring.
  - destruct l; [cbn; ring|discriminate].
Qed.
Lemma split_move a b y : 0 < a -> split_levels (map (aff a b) y) = (r <- split_levels y ;; Ok (umove a b (fst r), umove a b (snd r))).
Proof.
  intros A. unfold split_levels. change (map (aff a b) y) with (map (fun v => a * v + b) y) at 1 2. rewrite py_min_move, py_max_move by exact A. destruct (py_min y) as [lo|]; [|reflexivity]. cbn [bind]. destruct (py_max y) as [hi|]; [|reflexivity]. cbn [bind].
  replace ((a * lo + b + (a * hi + b)) / 2) with (aff a b ((lo + hi) / 2)) by (unfold aff; field). set (mid := (lo + hi) / 2).
  rewrite !filter_map. rewrite (filter_ext (fun x => Rltb (aff a b x) (aff a b mid)) (fun v => Rltb v mid)) by (intros; apply Rltb_aff; exact A). rewrite (filter_ext (fun x => Rltb (aff a b mid) (aff a b x)) (fun v => Rltb mid v)) by (intros; apply Rltb_aff; exact A).
  rewrite !dev_move by exact A. unfold aff at 1 2. rewrite !C52_fit_units by exact A. destruct (fit_mix_samples round6 fit aic (filter (fun v => Rltb v mid) y) 2) as [g0|]; [|reflexivity]. cbn [bind]. destruct (fit_mix_samples round6 fit aic (filter (fun v => Rltb mid v) y) 2) as [g1|]; [|reflexivity]. cbn [bind]. rewrite !center_move by exact A.
  destruct (center g0); [|reflexivity]. cbn [bind]. destruct (center g1); reflexivity.
Qed.
Lemma split_constant y : constant y -> split_levels y = Err ValueError.
Proof.
  intros (c & H). unfold split_levels. destruct y as [|v y]; [reflexivity|]. destruct (py_min_R (v :: y) ltac:(discriminate)) as (lo & -> & IL & _). destruct (py_max_R (v :: y) ltac:(discriminate)) as (hi & -> & IH & _). cbn [bind]. rewrite (H lo IL), (H hi IH).
  assert (F : filter (fun v0 => Rltb v0 ((c + c) / 2)) (v :: y) = []). { clear IL IH. induction (v :: y) as [|x l IH]; [reflexivity|]. cbn [filter]. rewrite (H x (or_introl eq_refl)). rewrite (proj2 (Rltb_false c ((c + c) / 2))) by lra. apply IH. intros w W. apply H. right. exact W. }
  rewrite F. reflexivity.
Qed.
Lemma thinned_constant y n_max out : constant y -> thinned y n_max = Ok out -> constant out.
Proof.
  intros C. unfold thinned. destruct n_max as [n|]; [|intros E; injection E as <-; exact C]. destruct (py_div _ n) as [ratio|]; [|discriminate]. cbn [bind]. intros E. apply downsample_constant in E; [exact E|lra|apply Nat.leb_le; reflexivity|]. destruct (Rltb 10 ratio); [|exact C]. destruct C as (c & H). exists c. intros v I. apply H. exact (every_In _ _ _ I).
Qed.
Lemma thinned_error y n_max x : thinned y n_max = Err x -> (x = ZeroDivisionError /\ (y = [] \/ n_max = Some 0)).
Proof.
  unfold thinned. destruct n_max as [n|]; [|discriminate]. unfold py_div at 1. cbn [neq NumR nofZ]. destruct (Reqb n (IZR 0)) eqn:Z.
  - apply Reqb_true in Z. cbn in Z. subst n. intros E. cbn [bind] in E. injection E as <-. split; [reflexivity|right; reflexivity].
  - cbn [bind]. set (y' := if Rltb 10 _ then _ else y). destruct y' as [|v l] eqn:Y.
    + intros E. unfold downsample in E. unfold py_div in E. cbn in E. rewrite (proj2 (Reqb_true 0 0) eq_refl) in E. cbn [bind] in E. injection E as <-. split; [reflexivity|]. left. destruct y as [|u y]; [reflexivity|]. exfalso. unfold y' in Y. destruct (Rltb 10 _); [|discriminate]. unfold every in Y. cbn [length seq combine filter fst] in Y. rewrite Nat.mod_0_l in Y by lia. discriminate Y.
    + intros E. rewrite downsample_scale in E by discriminate. cbv zeta in E. destruct (Rleb _ n); [discriminate|]. destruct (bin_linear_spec (5 / 100) (v :: l) 500 ltac:(lra) ltac:(discriminate) ltac:(apply Nat.leb_le; reflexivity)) as (counts & edges & lo & hi & B & _). rewrite B in E. discriminate.
Qed.
Lemma runner_move a b y n_max : 0 < a -> runner (map (aff a b) y) n_max = (r <- runner y n_max ;; Ok (umove a b (fst r), umove a b (snd r))).
Proof.
  intros A. rewrite !runner_eq.
  destruct n_max as [n|]; [|cbn [thinned bind]; apply split_move; exact A]. unfold thinned. rewrite map_length. destruct (py_div _ n) as [ratio|]; [|reflexivity]. cbn [bind].
  assert (T : (if Rltb 10 ratio then every (Nat.max 1 (Z.to_nat (truncR (ratio / 2)))) (map (aff a b) y) else map (aff a b) y) = map (aff a b) (if Rltb 10 ratio then every (Nat.max 1 (Z.to_nat (truncR (ratio / 2)))) y else y)) by (destruct (Rltb 10 ratio); [apply every_map|reflexivity]).
  rewrite T. set (y' := if Rltb 10 ratio then _ else y). clearbody y'. clear T. set (k := 500%nat). assert (K : (1 <= k)%nat) by (apply Nat.leb_le; reflexivity). clearbody k.
  destruct (Classical_Prop.classic (constant y')) as [C|C].
  - assert (E : forall z, constant z -> (length z = length y')%nat -> (w <- downsample Int_part (5 / 100) z n (Some k) ;; split_levels w) = if Reqb (INR (length y')) 0 then Err ZeroDivisionError else Err ValueError).
    { intros z CZ LZ. destruct z as [|v z].
      - cbn in LZ. rewrite <- LZ. unfold downsample, py_div. cbn. rewrite (proj2 (Reqb_true 0 0) eq_refl). reflexivity.
      - rewrite <- LZ. rewrite (proj2 (Reqb_false (INR (length (v :: z))) 0)) by (apply not_0_INR; discriminate). destruct (downsample Int_part (5 / 100) (v :: z) n (Some k)) as [w|x] eqn:D; cbn [bind].
        + apply split_constant. apply downsample_constant in D; [exact D|lra|exact K|exact CZ].
        + exfalso. rewrite downsample_scale in D by discriminate. cbv zeta in D. destruct (Rleb _ n); [discriminate|]. destruct (bin_linear_spec (5 / 100) (v :: z) k ltac:(lra) ltac:(discriminate) K) as (counts & edges & lo & hi & B & _). rewrite B in D. discriminate. }
    rewrite (E (map (aff a b) y')) by (rewrite ?map_length; auto using constant_move). rewrite (E y' C eq_refl). destruct (Reqb _ 0); reflexivity.
  - rewrite downsample_move by assumption. destruct (downsample _ _ y' n (Some k)) as [w|]; [|reflexivity]. cbn [bind]. apply split_move. exact A.
Qed.
End Levels.
