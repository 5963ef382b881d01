(** C71: an open eye is decided correctly without being told the levels. *)
From Coq Require Import ZArith Reals Bool List Lia Lra Permutation Sorted.
Import ListNotations.
From Verif Require EyeProofs EyeRunPeriod CdrModel CdrSpec StatsSpec UncertainProofs.
From Verif Require Import Base Num RBool StatsModel MathModel EyeSpec Pam2Model Pam2Spec EyeImageModel EyeRunModel EyeRunSpec EyeReportSpec EyeRunProofs EyeReportProps EyeLevelsProofs EyeLevelsProps EyeDataSpec EyeDataProps EyeClockProps EyeOpenSpec EyeOpenProofs.
Local Open Scope R_scope.
Local Open Scope result_scope.

Section Levels.
Variable round6 : R -> R.
Variable fit : nat -> list R -> result (list (R * R * R)).
Variable aic : list (R * R * R) -> list R -> R.
Definition dev (l : list R) : R := match usamples l with Some u => StatsModel.stddev u | None => 0 end.
Lemma dev_pos l : 0 <= dev l.
Proof. unfold dev. destruct l as [|x l]; [cbn; lra|]. destruct (UncertainProofs.usamples_spec (x :: l) ltac:(discriminate)) as (u & -> & _ & _ & P & _). exact P. Qed.
Lemma squares_zero m l : StatsModel.rsum (map (fun e => (e - m) ^ 2) l) = 0 -> forall v, In v l -> v = m.
Proof.
  unfold StatsModel.rsum. assert (P : forall l, 0 <= fold_right Rplus 0 (map (fun e => (e - m) ^ 2) l)) by (induction l0 as [|x l0 IH]; cbn [map fold_right]; [lra|]; pose proof (pow2_ge_0 (x - m)); lra).
  induction l as [|x l IH]; cbn [map fold_right]; intros E v [].
  - subst x. pose proof (P l). pose proof (pow2_ge_0 (v - m)). assert (Q : (v - m) ^ 2 = 0) by lra. assert (v - m = 0); [|lra]. apply Rsqr_0_uniq. unfold Rsqr. lra.
  - apply IH; [|assumption]. pose proof (P l). pose proof (pow2_ge_0 (x - m)). lra.
Qed.
Lemma dev_zero l : dev l = 0 -> exists c, forall v, In v l -> v = c.
Proof.
  unfold dev. destruct l as [|x l]; [exists 0; intros v []|]. destruct (UncertainProofs.usamples_spec (x :: l) ltac:(discriminate)) as (u & -> & _ & _ & _ & S & _). intros Z. exists (value u). apply squares_zero.
  rewrite Z in S. assert (P : 0 < INR (length (x :: l))) by (apply lt_0_INR; cbn [length]; lia). set (sum := StatsModel.rsum _) in *  . assert (E : sum = sum / INR (length (x :: l)) * INR (length (x :: l))) by (field; lra). rewrite <- S in E. rewrite E. ring.
Qed.
Lemma split_between lo hi y u0 u1 : averages fit -> ranges lo hi y -> split_levels round6 fit aic y = Ok (u0, u1) ->
  let eps := (hi - lo) / 2000 in
  lo - eps <= value u0 <= (lo + hi) / 2 + eps /\ (lo + hi) / 2 - eps <= value u1 <= hi + eps
  /\ 0 <= StatsModel.stddev u0 /\ 0 <= StatsModel.stddev u1 /\ (StatsModel.stddev u1 + StatsModel.stddev u0 = 0 -> value u0 <= value u1).
Proof.
  intros AV RG E eps. destruct (ranges_py _ _ _ RG) as (PL & PH & N). pose proof RG as (_ & _ & B). unfold split_levels in E. rewrite PL, PH in E. cbn [bind] in E. set (mid := (lo + hi) / 2) in *  .
  set (f0 := filter (fun v => Rltb v mid) y) in *  . set (f1 := filter (fun v => Rltb mid v) y) in *  .
  destruct (fit_mix_samples round6 fit aic f0 2) as [g0|] eqn:F0; [|discriminate]. cbn [bind] in E. destruct (fit_mix_samples round6 fit aic f1 2) as [g1|] eqn:F1; [|discriminate]. cbn [bind] in E.
  assert (B0 : forall v, In v f0 -> lo <= v <= mid) by (intros v V; apply filter_In in V; destruct V as (V & Q); apply Rltb_true in Q; specialize (B v V); lra).
  assert (B1 : forall v, In v f1 -> mid <= v <= hi) by (intros v V; apply filter_In in V; destruct V as (V & Q); apply Rltb_true in Q; specialize (B v V); lra).
  destruct (fit_between round6 fit aic AV f0 g0 lo mid B0 F0) as (N0 & M0). destruct (fit_between round6 fit aic AV f1 g1 mid hi B1 F1) as (N1 & M1).
  destruct (center_between g0 lo mid N0 M0) as (c0 & E0 & C0). destruct (center_between g1 mid hi N1 M1) as (c1 & E1 & C1). rewrite E0 in E. cbn [bind] in E. rewrite E1 in E. cbn [bind] in E. injection E as <- <-. cbn [value StatsModel.stddev].
  fold (dev f0) (dev f1). pose proof (dev_pos f0). pose proof (dev_pos f1). assert (MD : mid - lo = hi - mid /\ (mid - lo) / 1000 = eps) by (unfold mid, eps; lra).
  split; [lra|]. split; [lra|]. split; [assumption|]. split; [assumption|]. intros Z.
  assert (P0 : f0 <> []) by (intros Q; rewrite Q in F0; discriminate). assert (P1 : f1 <> []) by (intros Q; rewrite Q in F1; discriminate).
  destruct (dev_zero f0 ltac:(lra)) as (v0 & V0). destruct (dev_zero f1 ltac:(lra)) as (v1 & V1). rewrite (fit_const round6 fit aic f0 v0 P0 V0) in F0. rewrite (fit_const round6 fit aic f1 v1 P1 V1) in F1. injection F0 as <-. injection F1 as <-. cbn in E0, E1. injection E0 as <-. injection E1 as <-.
  destruct f0 as [|x0 r0]; [congruence|]. destruct f1 as [|x1 r1]; [congruence|]. pose proof (B0 x0 (or_introl eq_refl)). pose proof (B1 x1 (or_introl eq_refl)). rewrite (V0 x0 (or_introl eq_refl)) in *  . rewrite (V1 x1 (or_introl eq_refl)) in *  . lra.
Qed.
Lemma levels_between c y debug l lo hi : automatic c -> averages fit -> find_levels round6 fit aic c y debug = Ok l ->
  forall z, thinned y (c_levels_n_max c) = Ok z -> ranges lo hi z ->
  let eps := (hi - lo) / 2000 in
  lo - eps <= l_zero l <= (lo + hi) / 2 + eps /\ (lo + hi) / 2 - eps <= l_zero l + l_ua l <= hi + eps /\ (l_low_snr l = false -> 0 <= l_ua l).
Proof.
  intros (A & B) AV E z TH RG eps. unfold find_levels in E. rewrite A, B in E. rewrite runner_eq, TH in E. cbn [bind] in E. destruct (split_levels round6 fit aic z) as [[u0 u1]|] eqn:S; [|discriminate]. cbn [bind] in E. apply (f_equal (fun r => match r with Ok x => x | Err _ => l end)) in E. cbv beta iota zeta in E. subst l. cbn [l_zero l_ua l_low_snr].
  destruct (split_between lo hi z u0 u1 AV RG S) as (Z0 & Z1 & D0 & D1 & Z). fold eps in Z0, Z1. assert (UA : value (usub u1 (OU u0)) = value u1 - value u0) by (cbn; lra). rewrite UA. split; [lra|]. split; [lra|].
  intros SNR. destruct (Reqb (StatsModel.stddev u1 + StatsModel.stddev u0) 0) eqn:NZ; [apply Reqb_true in NZ; specialize (Z NZ); lra|]. apply Reqb_false in NZ.
  set (nz := StatsModel.stddev u1 + StatsModel.stddev u0) in *  . assert (NP : 0 < nz) by (unfold nz in *  ; lra).
  change (Rltb ((value u1 - value u0) / nz) 2 = false) in SNR. apply Rltb_false in SNR.
  assert (2 * nz <= value u1 - value u0); [|lra]. assert (EQ : (value u1 - value u0) / nz * nz = value u1 - value u0) by (field; lra). nra.
Qed.
Lemma half_middle c y debug l : find_levels round6 fit aic c y debug = Ok l -> c_y_th c = None -> l_half l = l_zero l + l_ua l / 2.
Proof. intros E T. destruct (C57_thresholds _ _ _ _ _ _ _ E) as (_ & _ & _ & H & _). exact (H T). Qed.
End Levels.

(** Up to the limit: whatever the distribution of the samples, level 0 is found
    in the lower half of their range, level 1 in the upper, and the threshold in
    the middle half, up to a 2000th of the range. *)
Theorem C71_levels_short : forall round6 fit aic c y debug l lo hi, automatic c -> averages fit -> short c y -> ranges lo hi y ->
  find_levels round6 fit aic c y debug = Ok l ->
  let eps := (hi - lo) / 2000 in
  lo - eps <= l_zero l <= (lo + hi) / 2 + eps /\ (lo + hi) / 2 - eps <= l_zero l + l_ua l <= hi + eps
  /\ (c_y_th c = None -> lo + (hi - lo) / 4 - eps <= l_half l <= hi - (hi - lo) / 4 + eps)
  /\ (l_low_snr l = false -> 0 <= l_ua l).
Proof.
  intros round6 fit aic c y debug l lo hi A AV SH RG E eps. destruct (ranges_py _ _ _ RG) as (_ & _ & N).
  destruct (levels_between round6 fit aic c y debug l lo hi A AV E y (thinned_short c y SH N) RG) as (Z0 & Z1 & UA). fold eps in Z0, Z1. split; [exact Z0|]. split; [exact Z1|]. split; [|exact UA].
  intros T. rewrite (half_middle _ _ _ _ _ _ _ E T). lra.
Qed.
Print Assumptions C71_levels_short.
(** With any number of samples that are represented: the threshold is in the
    middle three fifths of the range. *)
Theorem C71_threshold : forall round6 fit aic c y debug l lo hi, automatic c -> averages fit -> ranges lo hi y -> lo < hi -> represented (c_levels_n_max c) lo hi y ->
  find_levels round6 fit aic c y debug = Ok l ->
  (c_y_th c = None -> lo + (hi - lo) / 5 < l_half l < hi - (hi - lo) / 5) /\ (l_low_snr l = false -> 0 <= l_ua l).
Proof.
  intros round6 fit aic c y debug l lo hi A AV RG L RP E. destruct (thinned_range _ _ _ _ RG L RP) as (z & lo' & hi' & TH & RG' & BL & BH).
  destruct (levels_between round6 fit aic c y debug l lo' hi' A AV E z TH RG') as (Z0 & Z1 & UA). split; [|exact UA]. intros T. rewrite (half_middle _ _ _ _ _ _ _ E T). lra.
Qed.
Print Assumptions C71_threshold.
(** And levels are found whenever the fits are. *)
Theorem C71_found : forall round6 fit aic c y debug lo hi, automatic c -> averages fit -> (forall k l, (1 <= k <= 2)%nat -> l <> [] -> exists m, fit k l = Ok m) ->
  ranges lo hi y -> lo < hi -> represented (c_levels_n_max c) lo hi y -> exists l, find_levels round6 fit aic c y debug = Ok l.
Proof.
  intros round6 fit aic c y debug lo hi (A & B) AV T RG L RP. destruct (thinned_range _ _ _ _ RG L RP) as (z & lo' & hi' & TH & RG' & BL & BH).
  unfold find_levels. rewrite A, B, runner_eq, TH. cbn [bind]. unfold split_levels. destruct (ranges_py _ _ _ RG') as (-> & -> & N). cbn [bind]. set (mid := (lo' + hi') / 2). set (f0 := filter (fun v => Rltb v mid) z). set (f1 := filter (fun v => Rltb mid v) z). pose proof RG' as (IL & IH & BZ).
  assert (I0 : In lo' f0) by (apply filter_In; split; [exact IL|apply Rltb_true; unfold mid; lra]). assert (I1 : In hi' f1) by (apply filter_In; split; [exact IH|apply Rltb_true; unfold mid; lra]).
  destruct (fit_found round6 fit aic f0 T) as (g0 & F0); [intros Q; rewrite Q in I0; destruct I0|]. destruct (fit_found round6 fit aic f1 T) as (g1 & F1); [intros Q; rewrite Q in I1; destruct I1|]. rewrite F0, F1. cbn [bind].
  assert (S0 : forall v, In v f0 -> lo' <= v <= hi') by (intros v V; apply filter_In in V; apply BZ; tauto). assert (S1 : forall v, In v f1 -> lo' <= v <= hi') by (intros v V; apply filter_In in V; apply BZ; tauto).
  destruct (fit_between round6 fit aic AV f0 g0 lo' hi' S0 F0) as (N0 & M0). destruct (fit_between round6 fit aic AV f1 g1 lo' hi' S1 F1) as (N1 & M1).
  destruct (center_between g0 lo' hi' N0 M0) as (c0 & -> & _). destruct (center_between g1 lo' hi' N1 M1) as (c1 & -> & _). cbn [bind]. eexists. reflexivity.
Qed.
Print Assumptions C71_found.

(** One sample far out is enough to break this: a signal between 0 and 1 with a
    single spike three times as high gets a threshold above all other samples. *)
Theorem C71_spike_refuted : forall round6 fit aic c y y' debug l spike, automatic c -> c_y_th c = None -> averages fit -> short c (y ++ spike :: y') ->
  (forall v, In v (y ++ y') -> 0 <= v <= 1) -> 3 <= spike -> find_levels round6 fit aic c (y ++ spike :: y') debug = Ok l ->
  forall v, In v (y ++ y') -> v < l_half l.
Proof.
  intros round6 fit aic c y y' debug l spike A T AV SH B SP E v V. pose proof A as (A0 & A1). set (s := y ++ spike :: y') in *  .
  assert (SI : forall x, In x s <-> x = spike \/ In x (y ++ y')) by (intros x; unfold s; rewrite !in_app_iff; cbn [In]; intuition).
  assert (N : s <> []) by (unfold s; destruct y; discriminate). rewrite (half_middle _ _ _ _ _ _ _ E T).
  assert (E' := E). unfold find_levels in E'. rewrite A0, A1, runner_eq, (thinned_short c s SH N) in E'. cbn [bind] in E'. destruct (split_levels round6 fit aic s) as [[u0 u1]|] eqn:S; [|discriminate]. cbn [bind] in E'.
  apply (f_equal (fun r => match r with Ok x => x | Err _ => l end)) in E'. cbv beta iota zeta in E'. subst l. cbn [l_zero l_ua]. change (value (usub u1 (OU u0))) with (value u1 - value u0).
  unfold split_levels in S. assert (RG : exists lo, ranges lo spike s /\ 0 <= lo <= 1). { destruct (ranges_ex s N) as (lo & hi & I & J & RB). pose proof (proj1 (SI hi) J) as JH. pose proof (RB spike (proj2 (SI spike) (or_introl eq_refl))) as RS. assert (hi = spike) as -> by (destruct JH as [|JH]; [assumption|specialize (B hi JH); lra]).
    exists lo. split; [split; [exact I|split; assumption]|]. pose proof (RB v (proj2 (SI v) (or_intror V))). pose proof (B v V). destruct (proj1 (SI lo) I) as [->|IL]; [lra|apply B; exact IL]. }
  destruct RG as (lo & RG & LO). destruct (ranges_py _ _ _ RG) as (PL & PH & _). rewrite PL, PH in S. cbn [bind] in S. set (f0 := filter (fun v => Rltb v _) s) in *  . set (f1 := filter (fun v => Rltb _ v) s) in *  .
  destruct (fit_mix_samples round6 fit aic f0 2) as [g0|] eqn:F0; [|discriminate]. cbn [bind] in S.
  assert (B0 : forall x, In x f0 -> 0 <= x <= 1) by (intros x X; apply filter_In in X; destruct X as (X & Q); apply Rltb_true in Q; apply SI in X; destruct X as [->|X]; [lra|apply B; exact X]).
  assert (B1 : forall x, In x f1 -> x = spike) by (intros x X; apply filter_In in X; destruct X as (X & Q); apply Rltb_true in Q; apply SI in X; destruct X as [->|X]; [reflexivity|specialize (B x X); lra]).
  assert (N1 : f1 <> []) by (assert (I : In spike f1) by (apply filter_In; split; [apply SI; left; reflexivity|apply Rltb_true; lra]); intros Q; rewrite Q in I; destruct I).
  rewrite (fit_const round6 fit aic f1 spike N1 B1) in S. cbn [bind center mean] in S. destruct (fit_between round6 fit aic AV f0 g0 0 1 B0 F0) as (N0 & M0). destruct (center_between g0 0 1 N0 M0) as (c0 & E0 & C0). rewrite E0 in S. cbn [bind] in S.
  apply (f_equal (fun r => match r with Ok x => x | Err _ => (u0, u1) end)) in S. cbv beta iota zeta in S. injection S as <- <-. cbn [value]. specialize (B v V). lra.
Qed.
Print Assumptions C71_spike_refuted.

Section Open.
Variable round6 : R -> R.
Variable fit : nat -> list R -> result (list (R * R * R)).
Variable aic : list (R * R * R) -> list R -> R.
Variable new_cdr : R -> cdr.
Variable percentile : list R -> R -> R.
Variable cast : R -> Z.
Variable fuel : nat.
Variable draw : drawing.
Let completed := completed round6 fit aic new_cdr percentile cast fuel draw.
Let find_levels := find_levels round6 fit aic.
(** An open eye: levels and threshold are not configured, and the bands of the
    symbols are the lowest and highest fifth of the range of all samples or less. *)
Definition open_eye (e : eye) (k : bands) : Prop :=
  exists lo hi, automatic (e_config e) /\ c_y_th (e_config e) = None
    /\ ranges lo hi (all_samples (e_waveforms e)) /\ lo < hi /\ represented (c_levels_n_max (e_config e)) lo hi (all_samples (e_waveforms e))
    /\ low_to k <= lo + (hi - lo) / 5 /\ hi - (hi - lo) / 5 <= high_from k.
Hypothesis AV : averages fit.
Lemma open_half e k d l : open_eye e k -> find_levels (e_config e) (all_samples (e_waveforms e)) d = Ok l -> low_to k <= l_half l < high_from k /\ (l_low_snr l = false -> 0 <= l_ua l).
Proof. intros (lo & hi & A & T & RG & L & RP & KL & KH) E. destruct (C71_threshold _ _ _ _ _ _ _ lo hi A AV RG L RP E) as (H & U). specialize (H T). split; [lra|exact U]. Qed.
(** The data of an open eye is reported as sent: with given clock edges... *)
Theorem C71_data d e m e1 edges t k period near jitter sent : completed d e m e1 edges t -> c_skip_measures (e_config e) = false -> width e t < 1 -> open_eye e k ->
  3 * e_t_delta e + 2 * jitter < period -> jitter + e_t_delta e / 2 + Rabs (t - period) + width e t * t / 2 <= near ->
  Forall2 (record_of k period near jitter (e_t_delta e)) (combine (waves (e_waveforms e)) edges) sent ->
  reports_data e1 m k t (e_t_delta e) (combine (waves (e_waveforms e)) edges) sent.
Proof.
  intros CO SK WD OE G NEAR RO. pose proof CO as (CA & _). destruct (calculate_inv round6 fit aic new_cdr percentile cast fuel draw d e m e1 CA) as (l & _ & _ & _ & _ & _ & FL & _).
  destruct (open_half e k d l OE FL) as (H & _). exact (C67_data round6 fit aic new_cdr percentile cast fuel draw d e m e1 edges t l k period near jitter sent CO SK WD FL H G NEAR RO).
Qed.
(** ... and with the clock recovered from the signal, unless the eye is found too noisy. *)
Theorem C71_recovered d e m e1 edges t k period near drift sent sort n_comp compiled fixed t0 resampled :
  completed d e m e1 edges t -> c_skip_measures (e_config e) = false -> width e t < 1 -> open_eye e k ->
  (forall l, find_levels (e_config e) (all_samples (e_waveforms e)) d = Ok l -> l_low_snr l = false) ->
  (match c_hysteresis (e_config e) with Some h => 0 <= h | None => 0 <= c_hysteresis_ua (e_config e) end) ->
  e_clock_edges e = None -> e_clocks e = None ->
  (forall es, recovery new_cdr (e_config e) es = CdrModel.run Int_part sort n_comp compiled fixed (Some t0) es resampled) -> CdrSpec.sorts sort -> (200000 <= n_comp)%Z -> 0 < t0 ->
  (if fixed then t0 = period /\ drift = 0 else forall clk, In clk edges -> (2 <= length clk)%nat /\ forall p, EyeRunSpec.adjacent clk p -> Rabs (p - period) * (INR (length clk) + 1) <= drift) ->
  0 < period -> near <= period / 2 -> 0 <= drift ->
  let jitter := period / 2 - near + e_t_delta e in
  4 * jitter + 5 * drift < period -> 3 * e_t_delta e + 2 * (jitter + 2 * drift) < period -> jitter + 3 * drift + e_t_delta e / 2 + width e t * t / 2 <= near ->
  Forall2 (sampled k period near (e_t_delta e)) (waves (e_waveforms e)) sent ->
  Rabs (t - period) <= drift /\ exists sent', Forall2 (fun s s' => exists n, s' = renumbered n s period) sent sent'
    /\ Forall2 (clocks period (jitter + 2 * drift)) edges sent'
    /\ reports_data e1 m k t (e_t_delta e) (combine (waves (e_waveforms e)) edges) sent'.
Proof.
  intros CO SK WD OE SNR HY CE CC RE SO NC T0 FX P NH D0 jitter G1 G2 NEAR SA. pose proof CO as (CA & _). destruct (calculate_inv round6 fit aic new_cdr percentile cast fuel draw d e m e1 CA) as (l & _ & _ & _ & _ & _ & FL & _).
  destruct (open_half e k d l OE FL) as (H & U). pose proof (SNR l FL) as LS. specialize (U LS).
  assert (ORD : l_falling l <= l_rising l). { destruct (C57_thresholds _ _ _ _ _ _ _ FL) as (_ & _ & _ & _ & _ & H1 & H2). destruct (c_hysteresis (e_config e)) as [h|]; [specialize (H1 h eq_refl); lra|]. specialize (H2 eq_refl). nra. }
  exact (C67_recovered round6 fit aic new_cdr percentile cast fuel draw d e m e1 edges t l k period near drift sent sort n_comp compiled fixed t0 resampled CO SK WD FL H ORD LS CE CC RE SO NC T0 FX P NH D0 G1 G2 NEAR SA).
Qed.
(** If the fits are found and the edges are given, the calculation completes. *)
Theorem C71_calculated e edges t k period near jitter sent : open_eye e k -> (forall j l, (1 <= j <= 2)%nat -> l <> [] -> exists m, fit j l = Ok m) ->
  e_clock_edges e = Some edges -> symbol_period edges = Ok (Some t) -> (forall p, is_period edges p -> 0 < p) -> 0 < e_t_delta e ->
  (length (waves (e_waveforms e)) <= length edges)%nat -> (forall w, In w (waves (e_waveforms e)) -> fst w <> []) ->
  usable_mask draw k period (Rabs (t - period)) e -> (1 <= e_resolution e)%Z -> c_point_cloud (e_config e) = true -> c_skip_measures (e_config e) = false ->
  - (1 / 2) <= c_edge_lower (e_config e) < 3 / 2 -> - (1 / 2) <= c_edge_upper (e_config e) < 3 / 2 ->
  101 / 100 * e_t_delta e / t <= c_level_width (e_config e) < 1 -> e_t_delta e <= c_cross_width (e_config e) * t -> c_cross_width (e_config e) <= 1 ->
  3 * e_t_delta e + 2 * jitter < period -> jitter + e_t_delta e / 2 + Rabs (t - period) + c_level_width (e_config e) * t / 2 <= near ->
  let records := combine (waves (e_waveforms e)) edges in
  Forall2 (record_of k period near jitter (e_t_delta e)) records sent ->
  has_symbol t (e_t_delta e) records sent (fun p => cur p = true) -> has_symbol t (e_t_delta e) records sent (fun p => cur p = false) ->
  has_symbol t (e_t_delta e) records sent (fun p => prev p <> cur p) ->
  exists m e1, completed false e m e1 edges t /\ reports_data e1 m k t (e_t_delta e) records sent.
Proof.
  intros OE T CE SP PP TD LN NW UM RS PC SK EL EU LW CW CW1 G NEAR records RO H1 H0 HX. pose proof OE as (lo & hi & A & TH & RG & L & RP & _).
  destruct (C71_found round6 fit aic (e_config e) (all_samples (e_waveforms e)) false lo hi A AV T RG L RP) as (l & FL). destruct (open_half e k false l OE FL) as (H & _).
  destruct (C67_calculated round6 fit aic new_cdr percentile cast fuel draw e l edges t k period near jitter sent FL H CE SP PP TD LN NW UM RS PC SK EL EU LW CW CW1 G NEAR RO H1 H0 HX) as (m & e1 & CO & WD).
  exists m, e1. split; [exact CO|]. apply (C71_data false e m e1 edges t k period near jitter sent CO SK); try assumption; rewrite WD; [lra|exact NEAR].
Qed.
End Open.
Print Assumptions C71_data.
Print Assumptions C71_recovered.
Print Assumptions C71_calculated.

(** ** A concrete case: the waveform of C67_met with nothing configured about
    levels, and a fit that puts every component at the average. *)
Definition average_fit (k : nat) (l : list R) : result (list (R * R * R)) :=
  match l with [] => Err ValueError | _ => Ok (repeat (1, StatsModel.rsum l / INR (length l), 0) k) end.
Lemma average_fit_averages : averages average_fit.
Proof.
  intros k l m E. destruct l as [|x l]; [discriminate|]. injection E as <-. split; [apply repeat_length|]. intros c lo hi C B. apply repeat_spec in C. subst c. cbn [fst snd].
  apply (mean_band lo hi (x :: l)); [discriminate|]. apply Forall_forall. exact B.
Qed.
Definition open_config : config :=
  Config None (1 / 10) (Some 10000) RISING None 1 false (3 / 10) (3 / 10) (5 / 100) (2 / 10) (8 / 10) 0 true None None None.
Example C71_met round6 aic new_cdr percentile cast fuel draw : exists e0 m e1,
  construct bits_wave None (Some (ListOf [(true, bits_clock)])) None 10 (Some (Some open_config)) = Ok e0
  /\ open_eye e0 (Bands 0 0 1 1)
  /\ completed round6 average_fit aic new_cdr percentile cast fuel draw false e0 m e1 [bits_clock] 4
  /\ reports_data e1 m (Bands 0 0 1 1) 4 1 [((bits_t, bits_y), bits_clock)] [bits_signal].
Proof.
  destruct (C67_met round6 average_fit aic new_cdr percentile cast fuel draw) as (e0 & _ & _ & C & RO & _).
  assert (TD0 : e_t_delta e0 = 1). { injection C as <-. change ((INR 27 - INR 0) / INR 27 = 1). rewrite (INR_IZR_INZ 27), (INR_IZR_INZ 0). cbn [Z.of_nat Pos.of_succ_nat Pos.succ]. lra. }
  assert (WV0 : waves (e_waveforms e0) = [(bits_t, bits_y)]) by (injection C as <-; reflexivity). rewrite TD0, WV0 in RO. clear C TD0 WV0 e0.
  destruct (construct bits_wave None (Some (ListOf [(true, bits_clock)])) None 10 (Some (Some open_config))) as [e0|] eqn:C; [|discriminate].
  assert (TD : e_t_delta e0 = 1). { injection C as <-. change ((INR 27 - INR 0) / INR 27 = 1). rewrite (INR_IZR_INZ 27), (INR_IZR_INZ 0). cbn [Z.of_nat Pos.of_succ_nat Pos.succ]. lra. }
  assert (WV : waves (e_waveforms e0) = [(bits_t, bits_y)]) by (injection C as <-; reflexivity).
  assert (CF : e_config e0 = open_config) by (injection C as <-; reflexivity). assert (CE : e_clock_edges e0 = Some [bits_clock]) by (injection C as <-; reflexivity).
  assert (MK : e_mask e0 = None) by (injection C as <-; reflexivity). assert (MC : e_converted e0 = None) by (injection C as <-; reflexivity). assert (RS : e_resolution e0 = 10%Z) by (injection C as <-; reflexivity). clear C.
  assert (PP : forall p, is_period [bits_clock] p -> 0 < p). { intros p (l & [<-|[]] & k & a & b & A & B & ->). unfold bits_clock in A, B. destruct k as [|[|[|k]]]; cbn in A, B; [injection A as <-; injection B as <-; lra..|destruct k as [|k]; [discriminate|destruct k; discriminate]]. }
  assert (OE : open_eye e0 (Bands 0 0 1 1)).
  { exists 0, 1. rewrite CF. unfold all_samples. rewrite WV. cbn [map snd concat]. rewrite app_nil_r. split; [split; reflexivity|]. split; [reflexivity|]. split; [|split; [lra|split; [|cbn; lra]]].
    - split; [unfold bits_y; apply in_map_iff; exists 4%nat; split; [reflexivity|apply in_seq; lia]|]. split; [unfold bits_y; apply in_map_iff; exists 0%nat; split; [reflexivity|apply in_seq; lia]|].
      intros v V. unfold bits_y in V. apply in_map_iff in V. destruct V as (j & <- & _). destruct (j mod 8)%nat as [|[|[|[|[|[|[|[|q]]]]]]]]; lra.
    - left. change (length bits_y) with 28%nat. rewrite INR_IZR_INZ. cbn [Z.of_nat Pos.of_succ_nat Pos.succ]. lra. }
  assert (END : end_time 1 0 28 = 27) by (unfold end_time; rewrite INR_IZR_INZ; cbn [Z.of_nat Pos.of_succ_nat Pos.succ]; lra).
  assert (HS : forall (P : decision -> Prop) i b, nth_error bits_clock i = Some b -> 8 <= b <= 20 -> P (pattern bits_signal (Z.of_nat i)) -> has_symbol 4 (e_t_delta e0) (combine (waves (e_waveforms e0)) [bits_clock]) [bits_signal] P).
  { intros P i b NB B HP. rewrite WV, TD. exists (bits_t, bits_y, bits_clock), bits_signal, 0, i, b. split; [left; reflexivity|]. split; [reflexivity|]. split; [exact NB|]. split; [|exact HP].
    cbn [fst snd]. change (length bits_t) with 28%nat. rewrite END. unfold well_inside. lra. }
  destruct (C71_calculated round6 average_fit aic new_cdr percentile cast fuel draw average_fit_averages e0 [bits_clock] 4 (Bands 0 0 1 1) 4 (3 / 2) 0 [bits_signal] OE) as (m & e1 & CO & RD);
    [intros j [|x l] _ N; [congruence|eexists; reflexivity]|exact CE|exact bits_period|exact PP|rewrite TD; lra|rewrite WV; cbn; lia|rewrite WV; intros w [<-|[]]; discriminate|left; split; [exact MK|exact MC]|rewrite RS; lia|rewrite CF; reflexivity|
     rewrite CF; reflexivity|rewrite CF; cbn; lra|rewrite CF; cbn; lra|rewrite CF, TD; cbn; lra|rewrite CF, TD; cbn; lra|rewrite CF; cbn; lra|rewrite TD; lra|rewrite CF, TD; cbn [c_level_width open_config]; replace (4 - 4) with 0 by lra; rewrite Rabs_R0; lra|rewrite TD, WV; exact RO| | | |].
  1: refine (HS _ 0%nat 8 eq_refl ltac:(lra) _); reflexivity.
  1: refine (HS _ 1%nat 12 eq_refl ltac:(lra) _); reflexivity.
  1: refine (HS _ 1%nat 12 eq_refl ltac:(lra) _); discriminate.
  rewrite TD, WV in RD. exists e0, m, e1. split; [reflexivity|]. split; [exact OE|]. split; [exact CO|exact RD].
Qed.
(** More samples than the limit: half of them low and half high. *)
Example C71_represented_met : forall k n, 400 <= n -> 0 < INR k -> 2 * INR k <= 10 * n ->
  ranges 0 1 (repeat 0 k ++ repeat 1 k) /\ represented (Some n) 0 1 (repeat 0 k ++ repeat 1 k).
Proof.
  intros k n N K L. assert (LN : INR (length (repeat 0 k ++ repeat 1 k)) = 2 * INR k) by (rewrite app_length, !repeat_length, plus_INR; ring).
  assert (F : forall (p : R -> bool) x, length (filter p (repeat x k)) = if p x then k else 0%nat). { intros p x. clear. induction k as [|k IH]; [destruct (p x); reflexivity|]. cbn [repeat filter]. destruct (p x) eqn:P; cbn [length]; rewrite IH; reflexivity. }
  split.
  - destruct k as [|k]; [cbn in K; lra|]. split; [left; reflexivity|]. split; [apply in_or_app; right; left; reflexivity|]. intros v V. apply in_app_or in V. destruct V as [V|V]; apply repeat_spec in V; lra.
  - right. split; [lra|]. exists (repeat 0 k ++ repeat 1 k). split; [left; split; [lra|reflexivity]|]. unfold at_most, at_least. rewrite LN, !filter_app, !app_length, !F.
    rewrite (proj2 (Rleb_true 0 _)), (proj2 (Rleb_false 1 _)), (proj2 (Rleb_false _ 0)), (proj2 (Rleb_true _ 1)) by lra. rewrite Nat.add_0_r, Nat.add_0_l. nra.
Qed.
Example C71_spike_met : forall round6 aic, exists l, find_levels round6 average_fit aic default_config ([0; 1] ++ 3 :: [1]) false = Ok l /\ 1 < l_half l.
Proof.
  intros round6 aic. assert (SH : short default_config ([0; 1] ++ 3 :: [1])) by (intros n E; injection E as <-; cbn; lra).
  destruct (C71_found round6 average_fit aic default_config ([0; 1] ++ 3 :: [1]) false 0 3) as (l & E).
  - split; reflexivity.
  - exact average_fit_averages.
  - intros k [|x l] _ N; [congruence|eexists; reflexivity].
  - split; [left; reflexivity|]. split; [cbn; tauto|]. intros v V. cbn in V. intuition lra.
  - lra.
  - left. cbn. lra.
  - exists l. split; [exact E|]. apply (C71_spike_refuted round6 average_fit aic default_config [0; 1] [1] false l 3); try assumption; [split; reflexivity|reflexivity|exact average_fit_averages|intros v V; cbn in V; intuition lra|lra|cbn; tauto].
Qed.
