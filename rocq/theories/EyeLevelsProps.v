(** Theorems about the levels, thresholds and clock of an eye diagram. *)
From Coq Require Import ZArith Reals Bool List Lia Lra Permutation Sorted.
Import ListNotations.
From Verif Require Import Base Num RBool LinesModel LinesSpec LinesProps StatsModel StatsSpec StatsProofs UncertainProofs MathModel MathSpec MathProofs GaussProofs EyeSpec Pam2Model EyeRunModel EyeRunSpec EyeRunProofs EyeRunPeriod EyeLevelsProofs CdrSpec.
From Verif Require CdrModel.
Local Open Scope R_scope.
Local Open Scope result_scope.

(** *** C57: thresholds *)
Definition automatic (c : config) : Prop := c_y_0 c = None /\ c_y_1 c = None.
Definition manual (c : config) (v0 v1 : R) : Prop := c_y_0 c = Some v0 /\ c_y_1 c = Some v1.
(** However the levels were found, the thresholds lie around the decision level. *)
Theorem C57_thresholds : forall round6 fit aic c y debug l, find_levels round6 fit aic c y debug = Ok l ->
  (forall v, c_y_0 c = Some v -> l_zero l = v)
  /\ (forall v, c_y_1 c = Some v -> l_zero l + l_ua l = v)
  /\ (forall v, c_y_th c = Some v -> l_half l = v)
  /\ (c_y_th c = None -> l_half l = l_zero l + l_ua l / 2)
  /\ (l_rising l + l_falling l) / 2 = l_half l
  /\ (forall h, c_hysteresis c = Some h -> l_rising l - l_falling l = h)
  /\ (c_hysteresis c = None -> l_rising l - l_falling l = c_hysteresis_ua c * l_ua l).
Proof.
  intros round6 fit aic c y debug l E. unfold find_levels in E. destruct (match c_y_0 c with Some _ => _ | None => _ end) as [[u0 u1]|]; [|discriminate]. cbn [bind] in E. injection E as <-. cbn [l_zero l_ua l_half l_rising l_falling].
  destruct (c_y_0 c) as [z|], (c_y_1 c) as [w|], (c_y_th c) as [h|], (c_hysteresis c) as [k|]; cbn; repeat split; intros; try discriminate; repeat match goal with H : Some _ = Some _ |- _ => injection H as <- end; try lra; field.
Qed.
Print Assumptions C57_thresholds.
(** With both levels given (and no debug plots) the samples and the fits do not matter. *)
Theorem C57_manual : forall c v0 v1, manual c v0 v1 -> forall round6 fit aic y,
  exists l, find_levels round6 fit aic c y false = Ok l /\ l_zero l = v0 /\ l_ua l = v1 - v0 /\ l_low_snr l = false
    /\ forall round6' fit' aic' y', find_levels round6' fit' aic' c y' false = Ok l.
Proof.
  intros c v0 v1 (A & B) round6 fit aic y. eexists. split; [unfold find_levels; rewrite A, B; reflexivity|]. cbn [l_zero l_ua l_low_snr]. split; [reflexivity|]. split; [cbn; lra|]. split.
  - cbn. rewrite (proj2 (Reqb_true (0 + 0) 0)) by ring. reflexivity.
  - intros. unfold find_levels. rewrite A, B. reflexivity.
Qed.
Print Assumptions C57_manual.

(** *** C57: exact levels of a clean signal *)
Definition two_levels (lo hi : R) (y : list R) : Prop := lo < hi /\ In lo y /\ In hi y /\ forall v, In v y -> v = lo \/ v = hi.
Definition short (c : config) (y : list R) : Prop := forall n, c_levels_n_max c = Some n -> INR (length y) <= n.
Lemma py_of_min (y : list R) m : In m y -> (forall v, In v y -> m <= v) -> py_min y = Ok m.
Proof. intros I B. destruct (py_min_R y) as (lo & -> & IL & BL); [intros ->; destruct I|]. f_equal. specialize (B lo IL). specialize (BL m I). lra. Qed.
Lemma py_of_max (y : list R) m : In m y -> (forall v, In v y -> v <= m) -> py_max y = Ok m.
Proof. intros I B. destruct (py_max_R y) as (lo & -> & IL & BL); [intros ->; destruct I|]. f_equal. specialize (B lo IL). specialize (BL m I). lra. Qed.
Lemma dev_const l c : l <> [] -> (forall v, In v l -> v = c) -> match usamples l with Some u => StatsModel.stddev u | None => 0 end = 0.
Proof.
  intros N H. assert (E : l = map (fun e => 0 * e + c) l). { transitivity (map (fun e => e) l); [symmetry; apply map_id|]. apply map_ext_in. intros v I. rewrite (H v I). ring. }
  destruct (usamples l) as [u|] eqn:U; [|reflexivity]. rewrite E in U. rewrite (usamples_affine 0 c l) with (u := u) in U.
  - injection U as U. rewrite <- U. cbn. rewrite Rabs_R0. ring.
  - destruct l as [|x l]; [congruence|]. rewrite <- E in U. exact U.
Qed.
Lemma fit_const round6 fit aic y c : y <> [] -> (forall v, In v y -> v = c) -> fit_mix_samples round6 fit aic y 2 = Ok [Gaussian 1 c 0].
Proof.
  intros N H. unfold fit_mix_samples. assert (I : In c y) by (destruct y as [|v y]; [congruence|left; apply H; left; reflexivity]). rewrite (py_of_max y c), (py_of_min y c) by (try exact I; intros v V; rewrite (H v V); lra). cbn [bind]. rewrite (proj2 (Reqb_true (c - c) 0)) by ring.
  destruct y as [|v y]; [congruence|]. cbn. rewrite (H v (or_introl eq_refl)). reflexivity.
Qed.
Lemma split_two round6 fit aic lo hi y : two_levels lo hi y -> split_levels round6 fit aic y = Ok (UV lo 0, UV hi 0).
Proof.
  intros (L & I0 & I1 & A). unfold split_levels. rewrite (py_of_min y lo), (py_of_max y hi) by (try assumption; intros v V; destruct (A v V) as [-> | ->]; lra). cbn [bind].
  set (f0 := filter (fun v => Rltb v _) y). set (f1 := filter (fun v => Rltb _ v) y).
  assert (F0 : In lo f0 /\ forall v, In v f0 -> v = lo). { split; [apply filter_In; split; [exact I0|apply Rltb_true; lra]|]. intros v V. apply filter_In in V. destruct V as (V & Q). apply Rltb_true in Q. destruct (A v V) as [-> | ->]; [reflexivity|lra]. }
  assert (F1 : In hi f1 /\ forall v, In v f1 -> v = hi). { split; [apply filter_In; split; [exact I1|apply Rltb_true; lra]|]. intros v V. apply filter_In in V. destruct V as (V & Q). apply Rltb_true in Q. destruct (A v V) as [-> | ->]; [lra|reflexivity]. }
  destruct F0 as (F0 & G0), F1 as (F1 & G1). assert (N0 : f0 <> []) by (intros Q; rewrite Q in F0; destruct F0). assert (N1 : f1 <> []) by (intros Q; rewrite Q in F1; destruct F1).
  rewrite (fit_const round6 fit aic f0 lo N0 G0), (fit_const round6 fit aic f1 hi N1 G1). cbn [bind center mean]. rewrite (dev_const f0 lo N0 G0), (dev_const f1 hi N1 G1). reflexivity.
Qed.
Lemma thinned_short c y : short c y -> y <> [] -> thinned y (c_levels_n_max c) = Ok y.
Proof.
  intros SH N. unfold thinned. destruct (c_levels_n_max c) as [n|] eqn:E; [|reflexivity]. specialize (SH n E). pose proof (INR_pos y N) as P.
  unfold py_div at 1. cbn [neq NumR nofZ]. rewrite (proj2 (Reqb_false n (IZR 0))) by (cbn; lra). cbn [bind ndiv NumR]. rewrite (proj2 (Rltb_false 10 (INR (length y) / n))).
  - rewrite downsample_scale by exact N. cbv zeta. rewrite (proj2 (Rleb_true _ _)); [reflexivity|exact SH].
  - apply (Rmult_le_reg_r n); [lra|]. unfold Rdiv. rewrite Rmult_assoc, Rinv_l by lra. lra.
Qed.
(** The two levels of a clean signal are found exactly, whatever the fit does. *)
Theorem C57_exact : forall round6 fit aic c y debug lo hi, automatic c -> two_levels lo hi y -> short c y ->
  exists l, find_levels round6 fit aic c y debug = Ok l /\ l_zero l = lo /\ l_ua l = hi - lo /\ l_low_snr l = false.
Proof.
  intros round6 fit aic c y debug lo hi (A & B) T SH. assert (N : y <> []) by (destruct T as (_ & I & _); intros ->; destruct I).
  unfold find_levels. rewrite A, B. rewrite runner_eq, (thinned_short c y SH N). cbn [bind]. rewrite (split_two round6 fit aic lo hi y T). cbn [bind]. eexists. split; [reflexivity|]. cbn. split; [reflexivity|]. split; [lra|]. rewrite (proj2 (Reqb_true (0 + 0) 0)) by ring. reflexivity.
Qed.
Print Assumptions C57_exact.
Example C57_exact_witness : automatic default_config /\ two_levels (- 1) 2 [2; -1; -1; 2] /\ short default_config [2; -1; -1; 2].
Proof.
  split; [split; reflexivity|]. split.
  - split; [lra|]. split; [cbn; tauto|]. split; [cbn; tauto|]. intros v I. cbn in I. intuition lra.
  - intros n E. injection E as <-. cbn. lra.
Qed.

(** *** C57: levels of a clean signal with more samples than the limit *)
Definition occurrences (v : R) (y : list R) : nat := length (filter (fun x => Reqb x v) y).
Lemma centres_nth (e : list R) i a b : nth_error e i = Some a -> nth_error e (i + 1) = Some b -> nth_error (centres e) i = Some ((a + b) / 2).
Proof.
  revert i. induction e as [|u [|v e] IH]; intros [|i] A B; try discriminate; try (destruct i; discriminate).
  - cbn in A, B. injection A as <-. injection B as <-. reflexivity.
  - change (nth_error (centres (v :: e)) i = Some ((a + b) / 2)). apply IH; assumption.
Qed.
Lemma nth_combine {X Y} (l : list X) (m : list Y) i x y : nth_error (combine l m) i = Some (x, y) <-> nth_error l i = Some x /\ nth_error m i = Some y.
Proof.
  revert m i. induction l as [|u l IH]; intros [|v m] [|i]; cbn; try (split; [discriminate|intros (A & B); discriminate]).
  - split; [intros E; injection E as <- <-; split; reflexivity|intros (A & B); injection A as <-; injection B as <-; reflexivity].
  - apply IH.
Qed.
Lemma occurrences_filter p v y : (forall x, In x y -> p x = true -> x = v) -> p v = true -> length (filter p y) = occurrences v y.
Proof.
  intros H V. unfold occurrences. f_equal. apply filter_ext_in. intros x I. destruct (Reqb x v) eqn:E; [apply Reqb_true in E; subst; exact V|]. apply Reqb_false in E. destruct (p x) eqn:P; [|reflexivity]. exfalso. apply E. exact (H x I P).
Qed.
Lemma two_binned lo hi y n k out : two_levels lo hi y -> (2 <= k)%nat -> 0 < n < INR (length y) ->
  INR (length y) <= n * INR (occurrences lo y) -> INR (length y) <= n * INR (occurrences hi y) ->
  downsample Int_part (5 / 100) y n (Some k) = Ok out -> two_levels (lo + (hi - lo) / (2 * INR k)) (hi - (hi - lo) / (2 * INR k)) out.
Proof.
  intros (L & I0 & I1 & A) K N O0 O1. assert (NE : y <> []) by (intros ->; destruct I0). rewrite downsample_scale by exact NE. cbv zeta. rewrite (proj2 (Rleb_false (INR (length y)) n)) by lra.
  destruct (bin_linear_spec (5 / 100) y k ltac:(lra) NE ltac:(lia)) as (counts & edges & lo' & hi' & B & LE & LC & _ & _ & _ & _ & _ & CN & UN & _).
  assert (EE : edges = map (fun i => lo + INR i * ((hi - lo) / INR k)) (seq 0 (k + 1))).
  { pose proof B as B'. unfold bin_linear, linear_range in B'. rewrite (py_of_min y lo), (py_of_max y hi) in B' by (try assumption; intros v V; destruct (A v V) as [-> | ->]; lra). cbn [bind] in B'. cbn [neq NumR] in B'. rewrite (proj2 (Reqb_false lo hi)) in B' by lra. cbn [bind fst snd] in B'. rewrite linspace_R in B' by lia. destruct (histogram y _); [|discriminate]. cbn [bind] in B'. injection B' as _ <-. reflexivity. }
  rewrite B. cbn [bind fst snd]. intros E. injection E as <-.
  assert (KP : 2 <= INR k) by (change 2 with (INR 2); apply le_INR; exact K).
  assert (EN : forall i, (i < k + 1)%nat -> nth_error edges i = Some (lo + INR i * ((hi - lo) / INR k))). { intros i I. rewrite EE, nth_error_map. assert (S' : nth_error (seq 0 (k + 1)) i = Some i) by (rewrite (nth_error_nth' _ 0%nat) by (rewrite seq_length; exact I); rewrite seq_nth by exact I; reflexivity). rewrite S'. reflexivity. }
  assert (STEP : 0 < (hi - lo) / INR k) by (apply Rdiv_lt_0_compat; lra).
  assert (B0 : in_bin edges 0 lo = true). { unfold in_bin. rewrite (EN 0%nat), (EN (0 + 1)%nat) by lia. cbn [INR Nat.add]. rewrite (proj2 (Rleb_true _ _)) by lra. cbn [andb]. destruct (2 =? length edges)%nat; [apply Rleb_true|apply Rltb_true]; lra. }
  assert (B1 : in_bin edges (k - 1) hi = true). { unfold in_bin. rewrite (EN (k - 1)%nat), (EN (k - 1 + 1)%nat) by lia. replace (k - 1 + 1)%nat with k by lia. replace (k - 1 + 2)%nat with (k + 1)%nat by lia. rewrite LE, Nat.eqb_refl. assert (Q : lo + INR k * ((hi - lo) / INR k) = hi) by (field; lra). rewrite minus_INR by lia. cbn [INR].
    rewrite (proj2 (Rleb_true _ _)); [|replace (lo + (INR k - 1) * ((hi - lo) / INR k)) with (lo + INR k * ((hi - lo) / INR k) - (hi - lo) / INR k) by ring; rewrite Q; lra]. apply Rleb_true. rewrite Q. lra. }
  assert (U0 : forall i, in_bin edges i lo = true -> i = 0%nat) by (intros i Q; destruct (UN lo I0) as (j & _ & J); rewrite <- (J i Q); apply J; exact B0).
  assert (U1 : forall i, in_bin edges i hi = true -> i = (k - 1)%nat) by (intros i Q; destruct (UN hi I1) as (j & _ & J); rewrite <- (J i Q); apply J; exact B1).
  assert (C0 : nth_error (centres edges) 0 = Some (lo + (hi - lo) / (2 * INR k))). { erewrite (centres_nth edges 0) by (apply EN; lia). f_equal. cbn [INR Nat.add]. field. lra. }
  assert (C1 : nth_error (centres edges) (k - 1) = Some (hi - (hi - lo) / (2 * INR k))). { erewrite (centres_nth edges (k - 1)) by (apply EN; lia). f_equal. replace (k - 1 + 1)%nat with k by lia. rewrite minus_INR by lia. cbn [INR]. field. lra. }
  assert (CT : forall v i, (i < k)%nat -> in_bin edges i v = true -> (forall x, In x y -> in_bin edges i x = true -> x = v) -> INR (length y) <= n * INR (occurrences v y) -> forall ci, nth_error (centres edges) i = Some ci -> In ci (replicate_bins Int_part (n / INR (length y)) counts (centres edges))).
  { intros v i I BI UI O ci CI. unfold replicate_bins. apply in_flat_map. exists (count_if (in_bin edges i) y, ci). split; [apply (nth_error_In _ i); apply nth_combine; split; [apply CN; exact I|exact CI]|]. cbn [fst snd].
    assert (F : (1 <= Int_part (nofZ (count_if (in_bin edges i) y) * (n / INR (length y))))%Z).
    { unfold count_if. rewrite (occurrences_filter _ v y UI BI). cbn [nofZ NumR]. rewrite <- INR_IZR_INZ. assert (1 <= INR (occurrences v y) * (n / INR (length y))). { apply (Rmult_le_reg_r (INR (length y))); [lra|]. replace (INR (occurrences v y) * (n / INR (length y)) * INR (length y)) with (n * INR (occurrences v y)) by (field; lra). lra. }
      destruct (base_Int_part (INR (occurrences v y) * (n / INR (length y)))) as (P & Q). apply Zlt_succ_le. apply lt_IZR. rewrite succ_IZR. lra. }
    cbn [nmul NumR]. destruct (Z.to_nat _) eqn:ZN; [|left; reflexivity]. lia. }
  split; [|split; [|split]].
  - assert ((hi - lo) / (2 * INR k) <= (hi - lo) / 4); [|lra]. unfold Rdiv. apply Rmult_le_compat_l; [lra|]. apply Rinv_le_contravar; lra.
  - apply (CT lo 0%nat); try assumption; [lia|]. intros x X Q. destruct (A x X) as [-> | ->]; [reflexivity|]. apply U1 in Q. lia.
  - apply (CT hi (k - 1)%nat); try assumption; [lia|]. intros x X Q. destruct (A x X) as [-> | ->]; [|reflexivity]. apply U0 in Q. lia.
  - intros v V. unfold replicate_bins in V. apply in_flat_map in V. destruct V as ([c u] & P & V). cbn [fst snd] in V. apply In_nth_error in P. destruct P as (j & P). apply nth_combine in P. destruct P as (PC & PU).
    assert (J : (j < k)%nat) by (rewrite <- LC; apply nth_error_Some; rewrite PC; discriminate). rewrite (CN j J) in PC. injection PC as <-.
    destruct (in_bin edges j lo) eqn:Q0; [apply U0 in Q0; subst j; rewrite C0 in PU; injection PU as <-; apply repeat_spec in V; left; exact V|].
    destruct (in_bin edges j hi) eqn:Q1; [apply U1 in Q1; subst j; rewrite C1 in PU; injection PU as <-; apply repeat_spec in V; right; exact V|]. exfalso.
    assert (FE : filter (in_bin edges j) y = []) by (clear -A Q0 Q1; induction y as [|x y IH]; [reflexivity|]; cbn [filter]; destruct (A x (or_introl eq_refl)) as [-> | ->]; rewrite ?Q0, ?Q1; apply IH; intros v V; apply A; right; exact V).
    unfold count_if in V. rewrite FE in V. cbn in V. rewrite Rmult_0_l in V. assert (IP : Int_part 0 = 0%Z) by (destruct (base_Int_part 0); assert (-1 < Int_part 0 < 1)%Z by (split; apply lt_IZR; lra); lia). rewrite IP in V. destruct V.
Qed.
(** Up to ten times the limit the samples are binned: both levels come out a
    thousandth of the amplitude inside the true ones, if each keeps a sample. *)
Theorem C57_binned : forall round6 fit aic c y debug lo hi n, automatic c -> two_levels lo hi y ->
  c_levels_n_max c = Some n -> n < INR (length y) <= 10 * n ->
  INR (length y) <= n * INR (occurrences lo y) -> INR (length y) <= n * INR (occurrences hi y) ->
  exists l, find_levels round6 fit aic c y debug = Ok l
    /\ l_zero l = lo + (hi - lo) / 1000 /\ l_ua l = (hi - lo) * (998 / 1000) /\ l_low_snr l = false.
Proof.
  intros round6 fit aic c y debug lo hi n (A & B) T CN N O0 O1. assert (NE : y <> []) by (destruct T as (_ & I & _); intros ->; destruct I). pose proof (INR_pos y NE) as P.
  unfold find_levels. rewrite A, B, CN. rewrite runner_eq. unfold thinned. unfold py_div at 1. cbn [neq NumR nofZ]. rewrite (proj2 (Reqb_false n (IZR 0))) by (cbn; lra). cbn [bind ndiv NumR]. rewrite (proj2 (Rltb_false 10 (INR (length y) / n))) by (apply (Rmult_le_reg_r n); [lra|]; unfold Rdiv; rewrite Rmult_assoc, Rinv_l by lra; lra).
  assert (K : (2 <= 500)%nat) by (apply Nat.leb_le; reflexivity). assert (KI : INR 500 = 500) by (rewrite INR_IZR_INZ; f_equal). revert K KI. generalize 500%nat as k. intros k K KI.
  destruct (downsample Int_part (5 / 100) y n (Some k)) as [out|x] eqn:D.
  - pose proof (two_binned lo hi y n k out T K ltac:(lra) O0 O1 D) as TB. cbn [bind]. rewrite (split_two round6 fit aic _ _ out TB). cbn [bind]. rewrite KI. eexists. split; [reflexivity|]. cbn. split; [field|]. split; [field|]. rewrite (proj2 (Reqb_true (0 + 0) 0)) by ring. reflexivity.
  - exfalso. rewrite downsample_scale in D by exact NE. cbv zeta in D. destruct (Rleb _ n); [discriminate|]. destruct (bin_linear_spec (5 / 100) y k ltac:(lra) NE ltac:(lia)) as (counts & edges & a & b & Q & _). rewrite Q in D. discriminate.
Qed.
Print Assumptions C57_binned.
Definition with_limit (n : R) : config :=
  Config None (1 / 10) (Some n) RISING None (1 / 10000000) false (2 / 10) (1 / 10) (5 / 100) (2 / 10) (8 / 10) 0 false None None None.
Example C57_binned_witness : automatic (with_limit 2) /\ two_levels 0 1 [0; 1; 0; 1] /\ c_levels_n_max (with_limit 2) = Some 2 /\ 2 < INR 4 <= 10 * 2
  /\ INR 4 <= 2 * INR (occurrences 0 [0; 1; 0; 1]) /\ INR 4 <= 2 * INR (occurrences 1 [0; 1; 0; 1]).
Proof.
  split; [split; reflexivity|]. split; [split; [lra|]; split; [cbn; tauto|]; split; [cbn; tauto|]; intros v I; cbn in I; intuition lra|]. split; [reflexivity|]. split; [cbn; lra|].
  assert (E : occurrences 0 [0; 1; 0; 1] = 2%nat /\ occurrences 1 [0; 1; 0; 1] = 2%nat). { unfold occurrences. cbn [filter]. rewrite (proj2 (Reqb_true 0 0)), (proj2 (Reqb_true 1 1)), (proj2 (Reqb_false 0 1)), (proj2 (Reqb_false 1 0)) by lra. split; reflexivity. }
  destruct E as (-> & ->). split; cbn; lra.
Qed.

(** *** C57: signals without two levels *)
Theorem C57_constant : forall round6 fit aic c y debug v, (forall x, In x y -> x = v) ->
  (c_y_0 c = None \/ c_y_1 c = None \/ debug = true) ->
  exists x, find_levels round6 fit aic c y debug = Err x /\ (x = ValueError \/ (x = ZeroDivisionError /\ (y = [] \/ c_levels_n_max c = Some 0))).
Proof.
  intros round6 fit aic c y debug v H M. assert (E : find_levels round6 fit aic c y debug = bind (runner_levels round6 fit aic y (c_levels_n_max c)) (fun auto => find_levels round6 fit aic c y debug)).
  { unfold find_levels. destruct (c_y_0 c), (c_y_1 c), debug; try (destruct M as [M|[M|M]]; discriminate); destruct (runner_levels _ _ _ _ _); reflexivity. }
  rewrite E, runner_eq. destruct (thinned y (c_levels_n_max c)) as [w|x] eqn:T; cbn [bind].
  - assert (C : constant w) by (apply (thinned_constant y (c_levels_n_max c)); [exists v; exact H|exact T]). rewrite (split_constant round6 fit aic w C). exists ValueError. split; [reflexivity|left; reflexivity].
  - exists x. split; [reflexivity|]. right. exact (thinned_error y (c_levels_n_max c) x T).
Qed.
Print Assumptions C57_constant.

(** Beyond ten times the limit only every k-th sample is looked at.  A clean
    signal repeating with that stride has a single level there: calculating
    raises although every stretch of twelve samples has both levels. *)
Definition striped (n : nat) : list R := concat (repeat (0 :: repeat 1 11) n).
Lemma every_striped n : every 12 (striped n) = repeat 0 n.
Proof.
  unfold every. assert (G : forall s, (s mod 12 = 0)%nat -> map snd (filter (fun p => (fst p mod 12 =? 0)%nat) (combine (seq s (length (striped n))) (striped n))) = repeat 0 n).
  { induction n as [|n IH]; intros s S'; [reflexivity|]. change (striped (S n)) with ((0 :: repeat 1 11) ++ striped n). change (length ((0 :: repeat 1 11) ++ striped n)) with (12 + length (striped n))%nat. cbn [app repeat Nat.add seq combine filter fst].
    assert (M : forall j, (0 < j < 12)%nat -> ((s + j) mod 12 =? 0)%nat = false) by (intros j J; apply Nat.eqb_neq; rewrite <- Nat.add_mod_idemp_l, S' by lia; rewrite Nat.mod_small by lia; lia).
    rewrite (proj2 (Nat.eqb_eq _ _) S'). replace (S s) with (s + 1)%nat by lia. rewrite (M 1%nat) by lia. 
    replace (S (s + 1)) with (s + 2)%nat by lia. rewrite (M 2%nat) by lia. replace (S (s + 2)) with (s + 3)%nat by lia. rewrite (M 3%nat) by lia. replace (S (s + 3)) with (s + 4)%nat by lia. rewrite (M 4%nat) by lia. replace (S (s + 4)) with (s + 5)%nat by lia. rewrite (M 5%nat) by lia. replace (S (s + 5)) with (s + 6)%nat by lia. rewrite (M 6%nat) by lia. replace (S (s + 6)) with (s + 7)%nat by lia. rewrite (M 7%nat) by lia. replace (S (s + 7)) with (s + 8)%nat by lia. rewrite (M 8%nat) by lia. replace (S (s + 8)) with (s + 9)%nat by lia. rewrite (M 9%nat) by lia. replace (S (s + 9)) with (s + 10)%nat by lia. rewrite (M 10%nat) by lia. replace (S (s + 10)) with (s + 11)%nat by lia. rewrite (M 11%nat) by lia.
    cbn [map snd]. f_equal. apply IH. replace (S (s + 11)) with (s + 1 * 12)%nat by lia. rewrite Nat.mod_add by lia. exact S'. }
  apply G. reflexivity.
Qed.
Lemma striped_length n : length (striped n) = (12 * n)%nat.
Proof. induction n as [|n IH]; [reflexivity|]. change (striped (S n)) with ((0 :: repeat 1 11) ++ striped n). rewrite app_length, IH, Nat.mul_succ_r, Nat.add_comm. reflexivity. Qed.
Theorem C57_stride_refuted : forall limit, (1 <= limit)%nat ->
  let y := striped (2 * limit) in let c := with_limit (INR limit) in
  automatic c /\ two_levels 0 1 y /\ INR limit <= INR (occurrences 0 y)
  /\ forall round6 fit aic debug, find_levels round6 fit aic c y debug = Err ValueError.
Proof.
  intros limit LM y c. assert (P : 0 < INR limit) by (apply lt_0_INR; lia). split; [split; reflexivity|].
  assert (AL : forall n v, In v (striped n) -> v = 0 \/ v = 1) by (induction n as [|n IH]; intros v I; [destruct I|]; change (In v ((0 :: repeat 1 11) ++ striped n)) in I; apply in_app_or in I; destruct I as [[<-|I]|I]; [left; reflexivity|right; exact (repeat_spec _ _ _ I)|exact (IH v I)]).
  split; [|split].
  - split; [lra|]. unfold y. destruct (2 * limit)%nat as [|m] eqn:Q; [lia|]. split; [|split; [|apply AL]]; [left; reflexivity|right; left; reflexivity].
  - unfold occurrences. apply le_INR. assert (G : forall n, length (filter (fun x => Reqb x 0) (striped n)) = n). { induction n as [|n IH]; [reflexivity|]. change (striped (S n)) with ((0 :: repeat 1 11) ++ striped n). rewrite filter_app, app_length, IH. cbn [filter repeat]. rewrite (proj2 (Reqb_true 0 0)), (proj2 (Reqb_false 1 0)) by lra. reflexivity. }
    unfold y. rewrite G. lia.
  - intros round6 fit aic debug. unfold find_levels. change (c_y_0 c) with (@None R). change (c_levels_n_max c) with (Some (INR limit)). assert (R' : runner_levels round6 fit aic y (Some (INR limit)) = Err ValueError); [|rewrite R'; reflexivity].
    rewrite runner_eq. unfold thinned. unfold y at 1. rewrite striped_length. unfold py_div at 1. cbn [neq NumR nofZ]. rewrite (proj2 (Reqb_false (INR limit) (IZR 0))) by (cbn; lra). cbn [bind ndiv NumR].
    assert (Q : INR (12 * (2 * limit)) / INR limit = 24) by (rewrite !mult_INR; cbn [INR]; field; lra). rewrite Q. rewrite (proj2 (Rltb_true 10 24)) by lra.
    assert (TR : truncR (24 / 2) = 12%Z). { unfold truncR. rewrite (proj2 (Rltb_false (24 / 2) 0)) by lra. replace (24 / 2) with (IZR 12) by lra. destruct (base_Int_part (IZR 12)) as (U & V). assert (Int_part (IZR 12) <= 12)%Z by (apply le_IZR; exact U). assert (11 < Int_part (IZR 12))%Z by (apply lt_IZR; lra). lia. }
    rewrite TR. change (Nat.max 1 (Z.to_nat 12)) with 12%nat. unfold y. rewrite every_striped. set (z := repeat 0 (2 * limit)). assert (CZ : constant z) by (exists 0; intros v I; exact (repeat_spec _ _ _ I)). assert (NZ : z <> []) by (unfold z; destruct (2 * limit)%nat eqn:E; [lia|discriminate]).
    assert (K : (1 <= 500)%nat) by (apply Nat.leb_le; reflexivity). revert K. generalize 500%nat as k. intros k K. destruct (downsample Int_part (5 / 100) z (INR limit) (Some k)) as [w|x] eqn:D; cbn [bind].
    + apply split_constant. apply downsample_constant in D; [exact D|lra|exact K|exact CZ].
    + exfalso. rewrite downsample_scale in D by exact NZ. cbv zeta in D. destruct (Rleb _ _); [discriminate|]. destruct (bin_linear_spec (5 / 100) z k ltac:(lra) NZ K) as (counts & edges & a & b & B & _). rewrite B in D. discriminate.
Qed.
Print Assumptions C57_stride_refuted.

(** *** C57: other units *)
Definition in_units (a b : R) (c : config) : config :=
  Config (option_map (fun h => a * h) (c_hysteresis c)) (c_hysteresis_ua c) (c_levels_n_max c) (c_polarity c) (c_cdr c) (c_fallback_period c)
    (c_skip_measures c) (c_level_width c) (c_cross_width c) (c_time_height c) (c_edge_lower c) (c_edge_upper c)
    (a * c_noise_floor c + b) (c_point_cloud c) (option_map (fun v => a * v + b) (c_y_0 c)) (option_map (fun v => a * v + b) (c_y_1 c)) (option_map (fun v => a * v + b) (c_y_th c)).
Theorem C57_units : forall round6 fit aic c y debug a b, 0 < a ->
  find_levels round6 fit aic (in_units a b c) (map (fun v => a * v + b) y) debug
  = bind (find_levels round6 fit aic c y debug) (fun l => Ok (Levels (a * l_zero l + b) (a * l_ua l) (a * l_half l + b) (a * l_rising l + b) (a * l_falling l + b) (l_low_snr l))).
Proof.
  intros round6 fit aic c y debug a b A. unfold find_levels. cbn [in_units c_y_0 c_y_1 c_y_th c_hysteresis c_hysteresis_ua c_levels_n_max]. change (map (fun v => a * v + b) y) with (map (aff a b) y).
  assert (LOW : forall d s, 0 <= 1 -> (if Reqb (a * s) 0 then false else Rltb (a * d / (a * s)) 2) = (if Reqb s 0 then false else Rltb (d / s) 2)).
  { intros d s _. destruct (Reqb s 0) eqn:E; [apply Reqb_true in E|apply Reqb_false in E]; [rewrite (proj2 (Reqb_true (a * s) 0)) by (rewrite E; ring); reflexivity|]. rewrite (proj2 (Reqb_false (a * s) 0)) by (intros Q; apply Rmult_integral in Q; lra). f_equal. field. lra. }
  assert (FIN : forall u0 u1 w0 w1, value w0 = aff a b (value u0) -> value w1 = aff a b (value u1) -> StatsModel.stddev w0 = a * StatsModel.stddev u0 -> StatsModel.stddev w1 = a * StatsModel.stddev u1 ->
    Ok (Levels (value w0) (value (usub w1 (OU w0))) (match option_map (fun v => a * v + b) (c_y_th c) with Some h => h | None => value (udiv (uadd w1 (OU w0)) (ON 2)) end)
        ((match option_map (fun v => a * v + b) (c_y_th c) with Some h => h | None => value (udiv (uadd w1 (OU w0)) (ON 2)) end) + (match option_map (fun h => a * h) (c_hysteresis c) with Some h => h | None => c_hysteresis_ua c * value (usub w1 (OU w0)) end) / 2)
        ((match option_map (fun v => a * v + b) (c_y_th c) with Some h => h | None => value (udiv (uadd w1 (OU w0)) (ON 2)) end) - (match option_map (fun h => a * h) (c_hysteresis c) with Some h => h | None => c_hysteresis_ua c * value (usub w1 (OU w0)) end) / 2)
        (if Reqb (StatsModel.stddev w1 + StatsModel.stddev w0) 0 then false else ult (udiv (usub w1 (OU w0)) (ON (StatsModel.stddev w1 + StatsModel.stddev w0))) (ON 2)))
    = (l <- Ok (Levels (value u0) (value (usub u1 (OU u0))) (match c_y_th c with Some h => h | None => value (udiv (uadd u1 (OU u0)) (ON 2)) end)
        ((match c_y_th c with Some h => h | None => value (udiv (uadd u1 (OU u0)) (ON 2)) end) + (match c_hysteresis c with Some h => h | None => c_hysteresis_ua c * value (usub u1 (OU u0)) end) / 2)
        ((match c_y_th c with Some h => h | None => value (udiv (uadd u1 (OU u0)) (ON 2)) end) - (match c_hysteresis c with Some h => h | None => c_hysteresis_ua c * value (usub u1 (OU u0)) end) / 2)
        (if Reqb (StatsModel.stddev u1 + StatsModel.stddev u0) 0 then false else ult (udiv (usub u1 (OU u0)) (ON (StatsModel.stddev u1 + StatsModel.stddev u0))) (ON 2))) ;;
      Ok (Levels (a * l_zero l + b) (a * l_ua l) (a * l_half l + b) (a * l_rising l + b) (a * l_falling l + b) (l_low_snr l)))).
  { intros u0 u1 w0 w1 V0 V1 S0 S1. cbn [bind l_zero l_ua l_half l_rising l_falling l_low_snr]. f_equal. unfold ult, udiv, usub, uadd, oval. cbn [value StatsModel.stddev]. rewrite V0, V1, S0, S1. rewrite <- Rmult_plus_distr_l. replace (aff a b (value u1) - aff a b (value u0)) with (a * (value u1 - value u0)) by (unfold aff; ring). rewrite LOW by lra. unfold aff.
    destruct (c_y_th c) as [h|], (c_hysteresis c) as [k|]; cbn [option_map]; f_equal; field. }
  destruct (c_y_0 c) as [v0|], (c_y_1 c) as [v1|], debug; cbn [option_map];
    rewrite ?runner_move by exact A; try (destruct (runner_levels round6 fit aic y (c_levels_n_max c)) as [[u0 u1]|]; [|reflexivity]); cbn [bind fst snd];
    apply FIN; cbn [value StatsModel.stddev umove]; unfold aff; try reflexivity; try ring.
Qed.
Print Assumptions C57_units.

(** *** C57: noisy signals *)
Definition lower_half (y : list R) (v : R) : Prop := exists lo hi, In lo y /\ In hi y /\ (forall x, In x y -> lo <= x <= hi) /\ v < (lo + hi) / 2.
Definition upper_half (y : list R) (v : R) : Prop := exists lo hi, In lo y /\ In hi y /\ (forall x, In x y -> lo <= x <= hi) /\ (lo + hi) / 2 < v.
(** [part] lists the samples of [y] with the property, in order. *)
Inductive part (P : R -> Prop) : list R -> list R -> Prop :=
| part_nil : part P [] []
| part_keep x l k : P x -> part P l k -> part P (x :: l) (x :: k)
| part_drop x l k : ~ P x -> part P l k -> part P (x :: l) k.
Lemma part_filter (P : R -> Prop) (f : R -> bool) l : (forall x, f x = true <-> P x) -> part P l (filter f l).
Proof. intros H. induction l as [|x l IH]; [constructor|]. cbn [filter]. destruct (f x) eqn:E; [constructor 2; [apply H; exact E|exact IH]|constructor 3; [intros Q; apply H in Q; congruence|exact IH]]. Qed.
Lemma part_unique P l k k' : part P l k -> part P l k' -> k = k'.
Proof. intros A. revert k'. induction A; intros k' B; inversion B; subst; try contradiction; [reflexivity| |]; [f_equal; apply IHA; assumption|apply IHA; assumption]. Qed.
Definition deviation (l : list R) (s : R) : Prop := l <> [] /\ 0 <= s /\ s * s * INR (length l) = total (map (fun v => (v - total l / INR (length l)) * (v - total l / INR (length l))) l).
Lemma dev_deviation l s : deviation l s -> match usamples l with Some u => StatsModel.stddev u | None => 0 end = s.
Proof.
  intros (N & P & E). destruct l as [|x l]; [congruence|]. unfold usamples. cbn [StatsModel.stddev]. set (L := x :: l) in *  . pose proof (INR_pos L N) as Q. rewrite map_map. change StatsModel.rsum with total. rewrite <- E. replace (s * s * INR (length L) / INR (length L)) with (s * s) by (field; lra). apply sqrt_square. exact P.
Qed.
(** The eye counts as too noisy for clock recovery when the amplitude is less
    than twice the deviations of both halves of the samples together. *)
Theorem C57_low_snr : forall round6 fit aic c y debug l low high s0 s1, automatic c -> short c y ->
  find_levels round6 fit aic c y debug = Ok l ->
  part (lower_half y) y low -> part (upper_half y) y high -> deviation low s0 -> deviation high s1 ->
  (l_low_snr l = true <-> 0 < s0 + s1 /\ l_ua l < 2 * (s0 + s1)).
Proof.
  intros round6 fit aic c y debug l low high s0 s1 (A & B) SH E P0 P1 D0 D1. assert (N : y <> []) by (intros ->; destruct D0 as (Q & _); inversion P0; subst; congruence).
  unfold find_levels in E. rewrite A, B in E. rewrite runner_eq, (thinned_short c y SH N) in E. cbn [bind] in E. unfold split_levels in E. destruct (py_min_R y N) as (lo & EL & IL & BL). destruct (py_max_R y N) as (hi & EH & IH & BH). rewrite EL, EH in E. cbn [bind] in E.
  assert (F0 : filter (fun v => Rltb v ((lo + hi) / 2)) y = low). { apply (part_unique (lower_half y) y); [|exact P0]. apply part_filter. intros x. rewrite Rltb_true. split; [intros Q; exists lo, hi; repeat split; auto|]. intros (lo' & hi' & I0 & I1 & BB & Q). pose proof (BL lo' I0). pose proof (BH hi' I1). pose proof (BB lo IL). pose proof (BB hi IH). lra. }
  assert (F1 : filter (fun v => Rltb ((lo + hi) / 2) v) y = high). { apply (part_unique (upper_half y) y); [|exact P1]. apply part_filter. intros x. rewrite Rltb_true. split; [intros Q; exists lo, hi; repeat split; auto|]. intros (lo' & hi' & I0 & I1 & BB & Q). pose proof (BL lo' I0). pose proof (BH hi' I1). pose proof (BB lo IL). pose proof (BB hi IH). lra. }
  rewrite F0, F1 in E. rewrite (dev_deviation low s0 D0), (dev_deviation high s1 D1) in E. destruct (fit_mix_samples _ _ _ low 2) as [g0|]; [|discriminate]. cbn [bind] in E. destruct (fit_mix_samples _ _ _ high 2) as [g1|]; [|discriminate]. cbn [bind] in E. destruct (center g0) as [v0|]; [|discriminate]. destruct (center g1) as [v1|]; [|discriminate]. cbn [bind] in E. injection E as <-. cbn.
  destruct D0 as (_ & S0 & _), D1 as (_ & S1 & _). destruct (Reqb (s1 + s0) 0) eqn:Z; [apply Reqb_true in Z; split; [discriminate|intros (Q & _); lra]|]. apply Reqb_false in Z. assert (SP : 0 < s1 + s0) by lra. unfold ult, oval. cbn. rewrite Rltb_true. split.
  - intros Q. split; [lra|]. apply (Rmult_lt_compat_r (s1 + s0)) in Q; [|exact SP]. replace ((v1 - v0) / (s1 + s0) * (s1 + s0)) with (v1 - v0) in Q by (field; lra). lra.
  - intros (_ & Q). apply (Rmult_lt_reg_r (s1 + s0)); [exact SP|]. replace ((v1 - v0) / (s1 + s0) * (s1 + s0)) with (v1 - v0) by (field; lra). lra.
Qed.
Print Assumptions C57_low_snr.
Lemma plain_fit y : y <> [] -> ~ constant y -> exists s, fit_mix_samples (fun v => v) (fun _ _ => Ok [(1, 0, 1)]) (fun _ _ => 0) y 2 = Ok [Gaussian 1 (total y / INR (length y)) s].
Proof.
  intros N C. unfold fit_mix_samples. destruct (py_max_R y N) as (hi & -> & IH & BH). destruct (py_min_R y N) as (lo & -> & IL & BL). cbn [bind].
  rewrite (proj2 (Reqb_false (hi - lo) 0)) by (intros Q; apply C; exists lo; intros v V; specialize (BH v V); specialize (BL v V); lra).
  set (u := unique_count _). assert (U : (1 <= u)%nat). { unfold u, unique_count. rewrite map_id. destruct y as [|x y]; [congruence|]. cbn [map]. destruct (nodup Req_EM_T _) eqn:Q; [|cbn; lia]. exfalso. apply (in_nil (a := (x - MathModel.rsum (x :: y) / INR (length (x :: y))) / (hi - lo))). rewrite <- Q. apply nodup_In. left. reflexivity. }
  rewrite MathProofs.rsum_total. change (MathSpec.total y) with (total y). set (avg := total y / INR (length y)). clearbody avg. eexists. assert (Z : 0 * (hi - lo) + avg = avg) by ring.
  destruct (Nat.min 2 u) as [|[|[|n]]] eqn:M; [lia| | |lia]; cbn -[Rabs sqrt Rmult Rplus Rminus Rltb]; rewrite ?(proj2 (Rltb_false 0 0)) by lra; cbn -[Rabs sqrt Rmult Rplus Rminus Rltb]; rewrite Z; reflexivity.
Qed.
Example C57_low_snr_witness : exists l, find_levels (fun v => v) (fun _ _ => Ok [(1, 0, 1)]) (fun _ _ => 0) default_config [0; 10; 2; 8] false = Ok l
  /\ part (lower_half [0; 10; 2; 8]) [0; 10; 2; 8] [0; 2] /\ part (upper_half [0; 10; 2; 8]) [0; 10; 2; 8] [10; 8] /\ deviation [0; 2] 1 /\ deviation [10; 8] 1
  /\ short default_config [0; 10; 2; 8] /\ l_low_snr l = false.
Proof.
  set (y := [0; 10; 2; 8]). assert (N : y <> []) by discriminate. assert (SH : short default_config y) by (intros n E; injection E as <-; cbn; lra).
  assert (MI : py_min y = Ok 0) by (apply py_of_min; [cbn; tauto|intros v I; cbn in I; intuition lra]). assert (MA : py_max y = Ok 10) by (apply py_of_max; [cbn; tauto|intros v I; cbn in I; intuition lra]).
  assert (F0 : filter (fun v => Rltb v ((0 + 10) / 2)) y = [0; 2]). { unfold y. cbn [filter]. rewrite (proj2 (Rltb_true 0 _)), (proj2 (Rltb_false 10 _)), (proj2 (Rltb_true 2 _)), (proj2 (Rltb_false 8 _)) by lra. reflexivity. }
  assert (F1 : filter (fun v => Rltb ((0 + 10) / 2) v) y = [10; 8]). { unfold y. cbn [filter]. rewrite (proj2 (Rltb_false _ 0)), (proj2 (Rltb_true _ 10)), (proj2 (Rltb_false _ 2)), (proj2 (Rltb_true _ 8)) by lra. reflexivity. }
  assert (P0 : part (lower_half y) y [0; 2]). { rewrite <- F0. apply part_filter. intros x. rewrite Rltb_true. split; [intros Q; exists 0, 10; repeat split; cbn; try tauto; cbn in H; intuition lra|]. intros (lo' & hi' & I0 & I1 & BB & Q). pose proof (BB 0 ltac:(cbn; tauto)). pose proof (BB 10 ltac:(cbn; tauto)). cbn in I0, I1. intuition lra. }
  assert (P1 : part (upper_half y) y [10; 8]). { rewrite <- F1. apply part_filter. intros x. rewrite Rltb_true. split; [intros Q; exists 0, 10; repeat split; cbn; try tauto; cbn in H; intuition lra|]. intros (lo' & hi' & I0 & I1 & BB & Q). pose proof (BB 0 ltac:(cbn; tauto)). pose proof (BB 10 ltac:(cbn; tauto)). cbn in I0, I1. intuition lra. }
  assert (D0 : deviation [0; 2] 1) by (split; [discriminate|]; split; [lra|]; cbn; lra). assert (D1 : deviation [10; 8] 1) by (split; [discriminate|]; split; [lra|]; cbn; lra).
  assert (FL : exists l, find_levels (fun v => v) (fun _ _ => Ok [(1, 0, 1)]) (fun _ _ => 0) default_config y false = Ok l /\ l_ua l = 8).
  { unfold find_levels. cbn [c_y_0 default_config]. rewrite runner_eq. rewrite (thinned_short default_config y SH N). cbn [bind]. unfold split_levels. rewrite MI, MA. cbn [bind]. rewrite F0, F1.
    destruct (plain_fit [0; 2]) as (s0 & E0); [discriminate|intros (c & H); pose proof (H 0 ltac:(cbn; tauto)); pose proof (H 2 ltac:(cbn; tauto)); lra|]. destruct (plain_fit [10; 8]) as (s1 & E1); [discriminate|intros (c & H); pose proof (H 10 ltac:(cbn; tauto)); pose proof (H 8 ltac:(cbn; tauto)); lra|]. rewrite E0, E1. cbn [bind center mean]. eexists. split; [reflexivity|]. cbn. lra. }
  destruct FL as (l & FL & UA). exists l. split; [exact FL|]. repeat (split; [assumption|]). 
  pose proof (C57_low_snr _ _ _ default_config y false l _ _ _ _ (conj eq_refl eq_refl) SH FL P0 P1 D0 D1) as Q. destruct (l_low_snr l); [|reflexivity]. exfalso. destruct (proj1 Q eq_refl). lra.
Qed.

(** *** C57: edges of a clock *)
Lemma finite_some l e : finite_edges l = Ok e <-> l = map Some e.
Proof.
  revert e. induction l as [|o l IH]; intros e; [split; [intros E; injection E as <-; reflexivity|destruct e; [reflexivity|discriminate]]|].
  unfold finite_edges in *  . cbn [mapM]. destruct o as [x|]; cbn [bind]; [|split; [discriminate|destruct e; discriminate]]. destruct (mapM _ l) as [k|] eqn:M; cbn [bind].
  - split; [intros E; injection E as <-; cbn; f_equal; apply IH; reflexivity|]. intros E. destruct e as [|z e]; [discriminate|]. injection E as <- E. apply IH in E. injection E as <-. reflexivity.
  - split; [discriminate|]. intros E. destruct e as [|z e]; [discriminate|]. injection E as <- E. apply IH in E. discriminate.
Qed.
Lemma interleave_perm {X} (a b : list X) : Permutation (a ++ b) (interleave a b).
Proof. revert b. induction a as [|x a IH]; intros [|y b]; try reflexivity; [rewrite app_nil_r; reflexivity|]. cbn [app interleave]. apply perm_skip. rewrite <- Permutation_middle. apply perm_skip. apply IH. Qed.
Lemma interleave_sorted {X} (P : X -> X -> Prop) a b : StronglySorted P (interleave a b) -> StronglySorted P a /\ StronglySorted P b.
Proof.
  revert b. induction a as [|x a IH]; intros [|y b] S'; cbn [interleave] in S'; try (split; [constructor|assumption]); try (split; [assumption|constructor]).
  inversion S' as [|? ? S1 F1]; subst. inversion S1 as [|? ? S2 F2]; subst. destruct (IH b S2) as (A & B). split; constructor; try assumption.
  - inversion F1 as [|? ? _ F3]; subst. rewrite Forall_forall in F3 |- * . intros z Z. apply F3. apply (Permutation_in _ (interleave_perm a b)). apply in_or_app. left. exact Z.
  - rewrite Forall_forall in F2 |- * . intros z Z. apply F2. apply (Permutation_in _ (interleave_perm a b)). apply in_or_app. right. exact Z.
Qed.
Definition earlier (u v : option R) : Prop := forall a b, u = Some a -> v = Some b -> a < b.
Lemma earlier_some xs : StronglySorted Rlt xs <-> StronglySorted earlier (map Some xs).
Proof.
  induction xs as [|x xs IH]; [split; constructor|]. cbn [map]. split; intros S'; inversion S' as [|? ? S1 F]; subst; constructor; try (apply IH; exact S1); rewrite Forall_forall in F |- * ; intros z Z.
  - apply in_map_iff in Z. destruct Z as (w & <- & W). intros p q E1 E2. injection E1 as <-. injection E2 as <-. exact (F w W).
  - apply (F (Some z) (in_map Some _ _ Z)); reflexivity.
Qed.
Lemma strict_of_nodup l : NoDup l -> StronglySorted Rle l -> StronglySorted Rlt l.
Proof.
  intros N S'. induction S' as [|x l S' IH F]; [constructor|]. inversion N; subst. constructor; [apply IH; assumption|]. rewrite Forall_forall in F |- * . intros z Z. specialize (F z Z). destruct F as [F|F]; [exact F|subst; contradiction].
Qed.
Lemma nodup_strict l : StronglySorted Rlt l -> NoDup l.
Proof. intros S'. induction S' as [|x l S' IH F]; constructor; [|exact IH]. intros I. rewrite Forall_forall in F. specialize (F x I). lra. Qed.
Definition ordered (l : levels) : Prop := l_falling l <= l_half l <= l_rising l.
(** The edges of a waveform used as clock edges: strictly increasing, those of
    both directions together for BOTH. *)
Theorem C57_clock_edges : forall l t y, length t = length y -> y <> [] -> StronglySorted Rlt t -> ordered l ->
  (forall p e, selected_edges l p (t, y) = Ok e -> StronglySorted Rlt e)
  /\ (forall e, selected_edges l BOTH (t, y) = Ok e ->
        exists r f, selected_edges l RISING (t, y) = Ok r /\ selected_edges l FALLING (t, y) = Ok f /\ Permutation (r ++ f) e).
Proof.
  intros l t y L N ST (O1 & O2). destruct (C04_edges_total t y (l_rising l) (l_half l) (l_falling l) L N) as (r & f & E). destruct y as [|y0 y']; [congruence|]. set (y := y0 :: y') in *  .
  assert (S0 : LinesSpec.sample y 0 y0) by reflexivity.
  pose proof (C05_edge_times_increasing t y (l_rising l) (l_half l) (l_falling l) L ST O1 O2 r f y0 S0 E) as C. cbv zeta in C.
  assert (ES : StronglySorted earlier (if Rltb y0 (l_falling l) then interleave r f else interleave f r)).
  { destruct C as [(xs & -> & X)|(_ & i & xs & -> & X & _)]; [apply earlier_some; exact X|]. constructor; [apply earlier_some; exact X|]. apply Forall_forall. intros z _ p q Q. discriminate. }
  assert (RF : StronglySorted earlier r /\ StronglySorted earlier f) by (destruct (Rltb y0 (l_falling l)); apply interleave_sorted in ES; tauto). destruct RF as (SR & SF).
  assert (PM : Permutation (r ++ f) (if Rltb y0 (l_falling l) then interleave r f else interleave f r)) by (destruct (Rltb y0 (l_falling l)); [apply interleave_perm|rewrite Permutation_app_comm; apply interleave_perm]).
  assert (EQ : forall p, selected_edges l p (t, y) = match p with RISING => finite_edges r | FALLING => finite_edges f | BOTH => (r' <- finite_edges r ;; f' <- finite_edges f ;; Ok (filter_edge_polarity (r', f') BOTH)) end).
  { intros p. unfold selected_edges. cbn [fst snd]. rewrite C09_edges_np_same by exact L. rewrite E. cbn [bind fst snd]. destruct p; reflexivity. }
  split.
  - intros p e Q. rewrite EQ in Q. destruct p; [apply finite_some in Q; subst r; apply earlier_some; exact SR|apply finite_some in Q; subst f; apply earlier_some; exact SF|].
    destruct (finite_edges r) as [r'|] eqn:FR; [|discriminate]. cbn [bind] in Q. destruct (finite_edges f) as [f'|] eqn:FF; [|discriminate]. cbn [bind filter_edge_polarity fst snd] in Q. injection Q as <-. apply finite_some in FR. apply finite_some in FF. subst r f. destruct (EyeRProofs.sorted_R (r' ++ f')) as (SS & PP). apply strict_of_nodup; [|exact SS].
    apply (Permutation_NoDup PP). rewrite <- map_app in PM. destruct C as [(xs & XE & X)|(_ & i & xs & XE & _)]; rewrite XE in PM.
    + apply Permutation_sym in PM. apply (NoDup_map_inv (@Some R)). apply (Permutation_NoDup PM). apply FinFun.Injective_map_NoDup; [intros u v Q; injection Q as Q; exact Q|]. apply nodup_strict. exact X.
    + exfalso. assert (I : In None (map (@Some R) (r' ++ f'))) by (apply (Permutation_in _ (Permutation_sym PM)); left; reflexivity). apply in_map_iff in I. destruct I as (z & Q & _). discriminate.
  - intros e Q. rewrite EQ in Q. rewrite !EQ. destruct (finite_edges r) as [r'|]; [|discriminate]. cbn [bind] in Q. destruct (finite_edges f) as [f'|]; [|discriminate]. cbn [bind filter_edge_polarity fst snd] in Q. injection Q as <-. exists r', f'. split; [reflexivity|]. split; [reflexivity|]. apply EyeRProofs.sorted_R.
Qed.
Print Assumptions C57_clock_edges.

(** A record that starts below the thresholds has clock edges of every polarity. *)
Theorem C57_clock_found : forall l t y y0 p, length t = length y -> hd_error y = Some y0 -> y0 < l_falling l -> StronglySorted Rlt t -> ordered l ->
  exists e, selected_edges l p (t, y) = Ok e.
Proof.
  intros l t y y0 p L H0 Y ST (O1 & O2). destruct y as [|z y']; [discriminate|]. injection H0 as ->. destruct (C04_edges_total t (y0 :: y') (l_rising l) (l_half l) (l_falling l) L ltac:(discriminate)) as (r & f & E).
  pose proof (C05_edge_times_increasing t (y0 :: y') (l_rising l) (l_half l) (l_falling l) L ST O1 O2 r f y0 eq_refl E) as C. cbv zeta in C. rewrite (proj2 (Rltb_true _ _) Y) in C. destruct C as [(xs & X & _)|(Q & _)]; [|lra].
  assert (FN : forall k, (forall o, In o k -> In o (interleave r f)) -> exists e, finite_edges k = Ok e).
  { intros k K. assert (A : forall o, In o k -> exists v, o = Some v) by (intros o I; apply K in I; rewrite X in I; apply in_map_iff in I; destruct I as (v & <- & _); exists v; reflexivity). clear K. induction k as [|o k IH]; [exists []; reflexivity|]. destruct (A o (or_introl eq_refl)) as (v & ->). destruct (IH (fun q Q => A q (or_intror Q))) as (e & EE). exists (v :: e). apply finite_some. apply finite_some in EE. cbn. f_equal. exact EE. }
  destruct (FN r) as (r' & R'); [intros o I; apply (Permutation_in _ (interleave_perm r f)); apply in_or_app; left; exact I|]. destruct (FN f) as (f' & F'); [intros o I; apply (Permutation_in _ (interleave_perm r f)); apply in_or_app; right; exact I|].
  unfold selected_edges. cbn [fst snd]. rewrite C09_edges_np_same by exact L. rewrite E. cbn [bind fst snd]. destruct p; [exists r'; exact R'|exists f'; exact F'|]. rewrite R', F'. eexists. reflexivity.
Qed.
Print Assumptions C57_clock_found.
Example C57_clock_edges_witness : let l := Levels 0 1 (1 / 2) (6 / 10) (4 / 10) false in
  StronglySorted Rlt [0; 1; 2; 3] /\ ordered l /\ exists e, selected_edges l BOTH ([0; 1; 2; 3], [0; 1; 0; 1]) = Ok e /\ StronglySorted Rlt e.
Proof.
  intros l. assert (ST : StronglySorted Rlt [0; 1; 2; 3]) by (repeat constructor; lra). assert (O : ordered l) by (split; cbn; lra). split; [exact ST|]. split; [exact O|].
  destruct (C57_clock_found l [0; 1; 2; 3] [0; 1; 0; 1] 0 BOTH eq_refl eq_refl ltac:(cbn; lra) ST O) as (e & E). exists e. split; [exact E|]. apply (proj1 (C57_clock_edges l [0; 1; 2; 3] [0; 1; 0; 1] eq_refl ltac:(discriminate) ST O) BOTH). exact E.
Qed.

(** *** C57: fixed rate clock *)
Lemma ceil_above x (k : nat) : (k < Z.to_nat (ceil x))%nat <-> INR k < x.
Proof.
  unfold ceil. destruct (base_Int_part (- x)) as (A & B). rewrite INR_IZR_INZ. split.
  - intros Q. assert (Z.of_nat k + 1 <= - Int_part (- x))%Z by lia. apply IZR_le in H. rewrite plus_IZR, opp_IZR in H. lra.
  - intros Q. assert (Z.of_nat k < - Int_part (- x))%Z; [|lia]. apply lt_IZR. rewrite opp_IZR. lra.
Qed.
Theorem C57_fixed_rate : forall period t0 t1 t y, 0 < period -> hd_error t = Some t0 -> last t t0 = t1 ->
  exists e, fallback_clock period (t, y) = Ok e /\ StronglySorted Rlt e
    /\ (forall x, In x e <-> exists k, (1 <= k)%nat /\ x = t0 + INR k * period /\ x < t1)
    /\ (forall p, adjacent e p -> p = period).
Proof.
  intros period t0 t1 t y P H0 H1. assert (G0 : get t 0 = Ok t0) by (destruct t; [discriminate|]; injection H0 as ->; reflexivity).
  assert (G1 : get t (length t - 1) = Ok t1). { destruct t as [|z t]; [discriminate|]. injection H0 as ->. unfold get. assert (Q : nth_error (t0 :: t) (length (t0 :: t) - 1) = Some t1); [|rewrite Q; reflexivity]. rewrite <- H1. clear. cbn [length]. rewrite Nat.sub_succ, Nat.sub_0_r. assert (G : forall d u, nth_error (u :: t) (length t) = Some (last (u :: t) d)) by (induction t as [|a t IH]; intros d u; [reflexivity|]; cbn [length nth_error]; change (last (u :: a :: t) d) with (last (a :: t) d); apply IH). apply G. }
  unfold fallback_clock. cbn [fst]. rewrite G0, G1. cbn [bind]. unfold arange. rewrite (proj2 (Reqb_false period 0)) by lra. eexists. split; [reflexivity|]. set (n := Z.to_nat _). assert (SN : forall k, (k < n)%nat <-> t0 + INR (k + 1) * period < t1). { intros k. unfold n. rewrite ceil_above. rewrite plus_INR. cbn [INR]. split; intros Q.
    - apply (Rmult_lt_compat_r period) in Q; [|exact P]. replace ((t1 - (t0 + period)) / period * period) with (t1 - (t0 + period)) in Q by (field; lra). lra.
    - apply (Rmult_lt_reg_r period); [exact P|]. replace ((t1 - (t0 + period)) / period * period) with (t1 - (t0 + period)) by (field; lra). lra. }
  clearbody n. split; [|split].
  - apply sorted_map_seq. intros i j IJ. apply lt_INR in IJ. nra.
  - intros x. rewrite in_map_iff. split.
    + intros (k & <- & K). apply in_seq in K. exists (k + 1)%nat. split; [lia|]. assert (Q : t0 + period + INR k * period = t0 + INR (k + 1) * period) by (rewrite plus_INR; cbn [INR]; ring). split; [exact Q|]. rewrite Q. apply SN. lia.
    + intros (k & K & -> & Q). exists (k - 1)%nat. split; [rewrite minus_INR by exact K; cbn [INR]; ring|]. apply in_seq. split; [lia|]. cbn. apply SN. replace (k - 1 + 1)%nat with k by lia. exact Q.
  - intros p (k & a & b & A & B & ->). rewrite nth_error_map in A, B. assert (SQ : forall i v, nth_error (seq 0 n) i = Some v -> v = i) by (intros i v Q; assert (I : (i < n)%nat) by (rewrite <- (seq_length n 0); apply nth_error_Some; rewrite Q; discriminate); apply (nth_error_nth _ _ 0%nat) in Q; rewrite seq_nth in Q by exact I; exact (eq_sym Q)).
    destruct (nth_error (seq 0 n) k) as [u|] eqn:U; [|discriminate]. destruct (nth_error (seq 0 n) (S k)) as [v|] eqn:V; [|discriminate]. rewrite (SQ _ _ U) in A. rewrite (SQ _ _ V) in B. cbn [option_map] in A, B. rewrite S_INR in B. injection A as <-. injection B as <-. ring.
Qed.
Print Assumptions C57_fixed_rate.

(** *** C57: the symbol period *)
Lemma mean_range (l : list R) lo hi : l <> [] -> (forall x, In x l -> lo <= x <= hi) -> lo <= CdrModel.mean l <= hi.
Proof.
  intros N H. rewrite mean_rsum. pose proof (INR_pos l N) as P. assert (G : lo * INR (length l) <= StatsModel.rsum l <= hi * INR (length l)).
  { clear N P. induction l as [|x l IH]; [unfold StatsModel.rsum; cbn; lra|]. cbn [length]. rewrite S_INR. unfold StatsModel.rsum. cbn [fold_right]. specialize (H x (or_introl eq_refl)) as Q. specialize (IH (fun y Hy => H y (or_intror Hy))). unfold StatsModel.rsum in IH. lra. }
  split; apply (Rmult_le_reg_r (INR (length l))); try exact P; unfold Rdiv; rewrite Rmult_assoc, Rinv_l by lra; lra.
Qed.
(** The period is an average of the distances of adjacent edges; distances that
    are ten times the average or more (gaps) do not count. *)
Theorem C57_period : forall edges, (exists p, is_period edges p) -> (forall p, is_period edges p -> 0 < p) ->
  exists T, symbol_period edges = Ok (Some T)
    /\ (forall lo hi, (forall p, is_period edges p -> lo <= p <= hi) -> lo <= T <= hi)
    /\ (forall p0, (forall p, is_period edges p -> p = p0) -> T = p0)
    /\ exists all kept m, Permutation all (concat (map (fun l => map (fun ab => snd ab - fst ab) (combine l (tl l))) edges))
         /\ total all = m * INR (length all) /\ part (fun p => p < 10 * m) all kept /\ total kept = T * INR (length kept) /\ kept <> [].
Proof.
  intros edges (p & IP) POS. assert (NE : edges <> []) by (intros ->; destruct IP as (l & [] & _)). assert (NP : periods edges <> []) by (intros Q; apply periods_In in IP; rewrite Q in IP; destruct IP).
  destruct (symbol_period_spec edges NE NP (fun q Q => POS q (proj1 (periods_In edges q) Q))) as (NK & E & PK). cbv zeta in NK, E, PK. set (kept := filter _ (periods edges)) in *  . exists (CdrModel.mean kept). split; [exact E|].
  assert (RG : forall lo hi, (forall p, is_period edges p -> lo <= p <= hi) -> lo <= CdrModel.mean kept <= hi) by (intros lo hi H; apply mean_range; [exact NK|]; intros x I; apply H; apply periods_In; apply filter_In in I; apply I).
  split; [exact RG|]. split; [intros p0 H; specialize (RG p0 p0 (fun q Q => conj (Req_le _ _ (eq_sym (H q Q))) (Req_le _ _ (H q Q)))); lra|].
  assert (TM : forall l, l <> [] -> total l = CdrModel.mean l * INR (length l)) by (intros l N; rewrite mean_rsum; pose proof (INR_pos l N); change StatsModel.rsum with total; field; lra).
  exists (periods edges), kept, (CdrModel.mean (periods edges)). split; [|split; [apply TM; exact NP|split; [apply part_filter; intros x; apply Rltb_true|split; [apply TM; exact NK|exact NK]]]].
  unfold periods. assert (D : forall l, CdrModel.diff l = map (fun ab => snd ab - fst ab) (combine l (tl l))) by (induction l as [|a [|b l] IH]; [reflexivity|reflexivity|]; change (CdrModel.diff (a :: b :: l)) with (nsub b a :: CdrModel.diff (b :: l)); rewrite IH; reflexivity). rewrite (map_ext _ _ D). apply Permutation_refl.
Qed.
Print Assumptions C57_period.
(** Two waveforms with clock edges every four seconds. *)
Example C57_period_witness : exists T, symbol_period [[0; 4; 8]; [1; 5]] = Ok (Some T) /\ T = 4.
Proof.
  assert (D : forall p, is_period [[0; 4; 8]; [1; 5]] p -> p = 4). { intros p (l & L & (k & a & b & A & B & ->)). cbn in L. destruct L as [<-|[<-|[]]]; destruct k as [|[|[|k]]]; try discriminate; cbn in A, B; injection A as <-; injection B as <-; lra. }
  destruct (C57_period [[0; 4; 8]; [1; 5]]) as (T & E & _ & U & _).
  - exists (4 - 0), [0; 4; 8]. split; [left; reflexivity|]. exists 0%nat, 0, 4. repeat split.
  - intros p P. rewrite (D p P). lra.
  - exists T. split; [exact E|]. apply U. exact D.
Qed.
(** With ten distances or fewer no gap is long enough to be left out. *)
Lemma filter_all (g : R -> bool) l : (forall q, In q l -> g q = true) -> filter g l = l.
Proof. induction l as [|x l IH]; intros G; [reflexivity|]. cbn [filter]. rewrite (G x (or_introl eq_refl)). f_equal. apply IH. intros q Q. apply G. right. exact Q. Qed.
Lemma total_member (l : list R) p : (forall x, In x l -> 0 < x) -> In p l -> p <= total l.
Proof.
  intros H I. assert (NN : forall k, (forall x, In x k -> 0 < x) -> 0 <= total k) by (induction k as [|x k IH]; intros Q; [cbn; lra|]; change (0 <= x + total k); specialize (Q x (or_introl eq_refl)) as Q1; specialize (IH (fun y Hy => Q y (or_intror Hy))); lra).
  induction l as [|x l IH]; [destruct I|]. change (p <= x + total l). destruct I as [<-|I]; [specialize (NN l (fun y Hy => H y (or_intror Hy))); lra|]. specialize (H x (or_introl eq_refl)) as Q. specialize (IH (fun y Hy => H y (or_intror Hy)) I). lra.
Qed.
Lemma total_lt (l : list R) p : (forall x, In x l -> 0 < x) -> In p l -> (2 <= length l)%nat -> p < total l.
Proof.
  intros H I L. destruct (in_split p l I) as (a & b & ->). rewrite app_length in L. cbn [length] in L.
  assert (E : total (a ++ p :: b) = p + total (a ++ b)) by (clear; induction a as [|x a IH]; [reflexivity|]; cbn [app]; change (x + total (a ++ p :: b) = p + (x + total (a ++ b))); rewrite IH; ring). rewrite E.
  destruct (a ++ b) as [|q k] eqn:AB; [apply (f_equal (@length R)) in AB; rewrite app_length in AB; cbn in AB; lia|]. assert (HK : forall x, In x (q :: k) -> 0 < x) by (intros x X; apply H; rewrite <- AB in X; apply in_app_or in X; apply in_or_app; destruct X; [left|right; right]; assumption).
  pose proof (total_member (q :: k) q HK (or_introl eq_refl)). specialize (HK q (or_introl eq_refl)). lra.
Qed.
Theorem C57_gap_counts_refuted : forall edges, (exists p, is_period edges p) -> (forall p, is_period edges p -> 0 < p) ->
  let all := concat (map (fun l => map (fun ab => snd ab - fst ab) (combine l (tl l))) edges) in
  (length all <= 10)%nat -> symbol_period edges = Ok (Some (total all / INR (length all))).
Proof.
  intros edges (p & IP) POS all L. assert (NE : edges <> []) by (intros ->; destruct IP as (l & [] & _)). assert (NP : periods edges <> []) by (intros Q; apply periods_In in IP; rewrite Q in IP; destruct IP).
  assert (AE : periods edges = all). { unfold all, periods. f_equal. apply map_ext. induction a as [|u [|v l] IH]; [reflexivity|reflexivity|]. change (CdrModel.diff (u :: v :: l)) with (nsub v u :: CdrModel.diff (v :: l)). rewrite IH. reflexivity. }
  assert (PA : forall q, In q (periods edges) -> 0 < q) by (intros q Q; apply POS; apply periods_In; exact Q).
  destruct (symbol_period_spec edges NE NP PA) as (_ & E & _). cbv zeta in E. rewrite E. do 2 f_equal. rewrite mean_rsum. change StatsModel.rsum with total.
  assert (F : filter (fun q => Rltb q (10 * CdrModel.mean (periods edges))) (periods edges) = periods edges); [|rewrite F, AE; reflexivity].
  assert (ALL : forall q, In q (periods edges) -> Rltb q (10 * CdrModel.mean (periods edges)) = true).
  { intros q Q. apply Rltb_true. rewrite mean_rsum. change StatsModel.rsum with total. pose proof (INR_pos _ NP) as P. assert (L10 : INR (length (periods edges)) <= 10) by (rewrite AE; apply le_INR in L; cbn [INR] in L; lra). pose proof (PA q Q) as Q0.
    apply (Rmult_lt_reg_r (INR (length (periods edges)))); [exact P|]. replace (10 * (total (periods edges) / INR (length (periods edges))) * INR (length (periods edges))) with (10 * total (periods edges)) by (field; lra).
    destruct (le_lt_dec 2 (length (periods edges))) as [L2|L2]; [pose proof (total_lt _ q PA Q L2); nra|]. pose proof (total_member _ q PA Q). assert (L1 : INR (length (periods edges)) <= 1) by (change 1 with (INR 1); apply le_INR; lia). nra. }
  apply filter_all. exact ALL.
Qed.
Print Assumptions C57_gap_counts_refuted.
