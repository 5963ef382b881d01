(** C67: the clock of a signal is recovered from the signal. *)
From Coq Require Import ZArith Reals Bool List Lia Lra Sorted Permutation.
Import ListNotations.
From Verif Require Import Base Num RBool DrawSpec LinesModel LinesSpec LinesProps StatsModel MaskModel EyeModel EyeSpec UncertainProofs Pam2Model Pam2Spec Pam2Proofs MathModel EyeImageModel EyeRunModel EyeRunSpec EyeRunProofs EyeRunPeriod EyeLevelsProofs EyeLevelsProps EyeReportSpec EyeReportProps EyeDataSpec EyeDataProps.
From Verif Require CdrModel CdrSpec CdrProps EyeRunSpec.
Local Open Scope R_scope.

(** ** Edges lie between samples on both sides of the threshold *)
Lemma value_straddles t y v i x : length t = length y -> (1 <= i < length y)%nat -> (exists j, crossing t y (Z.of_nat i) v false 0 = Ok (Some x, j)) ->
  exists j, straddles y v j /\ interpolates t y v j x.
Proof.
  intros L I (j & E). destruct (C03_crossing_backward t y i v L I) as [(j' & x' & E' & _ & S & _ & P)|(_ & E')]; rewrite E in E'; [|discriminate].
  injection E' as <- _. exists j'. split; assumption.
Qed.
Lemma edge_between l p t y es : length t = length y -> l_falling l <= l_rising l -> selected_edges l p (t, y) = Ok es ->
  forall x, In x es -> exists j, straddles y (l_half l) j /\ interpolates t y (l_half l) j x.
Proof.
  intros L O S x I. destruct (LinesModel.edges t y (l_rising l) (l_half l) (l_falling l)) as [[r f]|] eqn:E.
  2: unfold selected_edges in S; cbn [fst snd] in S; rewrite C09_edges_np_same in S by exact L; rewrite E in S; discriminate.
  assert (PB : proper_band y (l_rising l) (l_falling l)). { intros a _ A B. apply Rltb_true in A. apply Rltb_true in B. lra. }
  destruct (C04_edges_hysteresis R _ t y (l_rising l) (l_half l) (l_falling l) r f PB E) as ((ir & _ & IR & FR) & (jf & _ & IF & FF)).
  assert (G : forall idx q, Forall2 (fun i e => exists j, crossing t y (Z.of_nat i) (l_half l) false 0 = Ok (e, j)) idx q -> (forall i, In i idx -> (1 <= i < length y)%nat) -> In (Some x) q -> exists j, straddles y (l_half l) j /\ interpolates t y (l_half l) j x).
  { intros idx q F. induction F as [|i e idx q V F IH]; intros B [].
    - subst e. apply (value_straddles t y _ i); [exact L|apply B; left; reflexivity|exact V].
    - apply IH; [intros i' I'; apply B; right; exact I'|assumption]. }
  assert (GR : In (Some x) r -> exists j, straddles y (l_half l) j /\ interpolates t y (l_half l) j x) by (apply (G ir r FR); intros i' I'; apply IR in I'; destruct I' as (A & B & _); lia).
  assert (GF : In (Some x) f -> exists j, straddles y (l_half l) j /\ interpolates t y (l_half l) j x) by (apply (G jf f FF); intros i' I'; apply IF in I'; destruct I' as (A & B & _); lia).
  unfold selected_edges in S. cbn [fst snd] in S. rewrite C09_edges_np_same in S by exact L. rewrite E in S. cbn [bind fst snd] in S.
  destruct p.
  - apply finite_some in S. subst r. apply GR. apply in_map. exact I.
  - apply finite_some in S. subst f. apply GF. apply in_map. exact I.
  - destruct (finite_edges r) as [r'|] eqn:R1; [|discriminate]. cbn [bind] in S. destruct (finite_edges f) as [f'|] eqn:F1; [|discriminate]. cbn [bind filter_edge_polarity fst snd] in S. injection S as <-.
    apply finite_some in R1. apply finite_some in F1. subst r f. destruct (EyeRProofs.sorted_R (r' ++ f')) as (_ & PP). apply (Permutation_in _ (Permutation_sym PP)) in I. apply in_app_or in I. destruct I as [I|I]; [apply GR|apply GF]; apply in_map; exact I.
Qed.

(** ** ... so between symbols *)
Definition boundary (period : R) (s : signal) (n : Z) : R := middle period s n - period / 2.
Lemma edge_at_boundary k period near td w s l p es : 0 < td -> 0 < period -> near <= period / 2 -> sampled k period near td w s -> low_to k <= l_half l < high_from k ->
  l_falling l <= l_rising l -> selected_edges l p w = Ok es -> forall x, In x es -> exists n, Rabs (x - boundary period s n) <= period / 2 - near + td.
Proof.
  intros TD T NH (first & FT & CA) HALF O S x I. destruct w as [t y]. cbn [fst snd] in *  .
  assert (L : length t = length y) by (rewrite FT, map_length, seq_length; reflexivity).
  destruct (edge_between l p t y es L O S x I) as (j & (J1 & a & b & SA & SB & AB) & x1 & x2 & y1 & y2 & X1 & X2 & _ & _ & _ & _ & BT).
  unfold sample in *  . assert (JL : (j < length y)%nat) by (apply nth_error_Some; congruence).
  assert (TM : forall i v, nth_error t i = Some v -> v = first + INR i * td).
  { intros i v V. assert (IL : (i < length y)%nat) by (rewrite <- L; apply nth_error_Some; congruence). rewrite FT, nth_error_map, (nth_error_nth' _ 0%nat) in V by (rewrite seq_length; exact IL). rewrite seq_nth in V by exact IL. cbn in V. congruence. }
  apply TM in X1. apply TM in X2. assert (IJ : INR j = INR (j - 1) + 1) by (rewrite minus_INR by exact J1; cbn [INR]; lra). rewrite IJ in X2.
  assert (D : x2 = x1 + td) by (rewrite X1, X2; lra). rewrite Rmin_left, Rmax_right in BT by lra.
  (** the symbol sample j-1 is in *)
  pose (z := Int_part ((x1 - fst s) / period + 1 / 2)). destruct (base_Int_part ((x1 - fst s) / period + 1 / 2)) as (B1 & B2). fold z in B1, B2.
  assert (M : - (period / 2) <= x1 - middle period s z <= period / 2).
  { unfold middle. assert (Q : x1 - fst s = (x1 - fst s) / period * period) by (field; lra). set (q := (x1 - fst s) / period) in *  .
    assert (Q2 : IZR z * period <= (q + 1 / 2) * period) by (apply Rmult_le_compat_r; lra). assert (Q3 : (q - 1 / 2) * period <= IZR z * period) by (apply Rmult_le_compat_r; lra). lra. }
  assert (SH : ~ (Rabs (x1 - middle period s z) <= near /\ Rabs (x2 - middle period s z) <= near)).
  { intros (N1 & N2). rewrite X1 in N1. rewrite X2, <- IJ in N2. pose proof (CA (j - 1)%nat z ltac:(lia) N1) as H1. pose proof (CA j z JL N2) as H2.
    rewrite (nth_error_nth _ _ 0 SA) in H1. rewrite (nth_error_nth _ _ 0 SB) in H2. unfold shows in H1, H2. destruct (snd s z); lra. }
  destruct (Rle_dec (x1 - middle period s z) near) as [N1|N1]; [destruct (Rle_dec (- near) (x1 - middle period s z)) as [N2|N2]; [destruct (Rle_dec (x2 - middle period s z) near) as [N3|N3]|]|].
  - destruct SH. split; apply Rabs_le; lra.
  - exists (z + 1)%Z. apply Rabs_le. unfold boundary, middle in *  . rewrite plus_IZR. lra.
  - exists z. apply Rabs_le. unfold boundary in *  . lra.
  - exists (z + 1)%Z. apply Rabs_le. unfold boundary, middle in *  . rewrite plus_IZR. lra.
Qed.

(** ** A recovered clock has the phase of the boundaries *)
Lemma one_offset t q J (errors : list R) : 0 < t -> 4 * J < t -> CdrSpec.jumps t errors = 0%nat -> Forall (fun x => exists c, Rabs (x - (IZR c * t - q)) <= J) errors ->
  exists c, Forall (fun x => Rabs (x - (IZR c * t - q)) <= J) errors.
Proof.
  intros T J4 JU F. destruct errors as [|x l]; [exists 0%Z; constructor|]. inversion_clear F as [|? ? (c & C) F']. exists c. revert x C JU F'.
  induction l as [|x' l IH]; intros x C JU F; [constructor; [exact C|constructor]|]. constructor; [exact C|]. inversion_clear F as [|? ? (c' & C') F'].
  cbn [CdrSpec.jumps] in JU. destruct (Rlt_dec (t / 2) (Rabs (x' - x))) as [|N]; [discriminate|]. apply Rnot_lt_le in N.
  assert (c' = c) as ->. { apply Rabs_le_between in C. apply Rabs_le_between in C'. apply Rabs_le_between in N.
    assert (LT : (- 1 < c' - c < 1)%Z); [|lia]. split; apply lt_IZR; rewrite minus_IZR; apply (Rmult_lt_reg_r t); lra. }
  apply IH; assumption.
Qed.
Lemma total_band J K (l : list R) : Forall (fun x => Rabs (x - K) <= J) l -> INR (length l) * (K - J) <= CdrSpec.total l <= INR (length l) * (K + J).
Proof.
  induction 1 as [|x l A F IH]; [cbn; lra|]. apply Rabs_le_between in A. cbn [length]. rewrite S_INR. change (CdrSpec.total (x :: l)) with (x + CdrSpec.total l). lra.
Qed.
Lemma clock_near period J drift B es t resampled clk ties : 0 < period -> 4 * J + 5 * drift < period -> 0 <= drift -> CdrSpec.rising es -> (1 <= length es)%nat ->
  CdrSpec.clock_of es t resampled clk ties -> 0 < t -> Rabs (t - period) * (INR (length clk) + 1) <= drift ->
  Rabs (hd 0 es - B) <= J -> Forall (fun x => exists z, Rabs (x - (B + IZR z * period)) <= J) es ->
  forall i b, nth_error clk i = Some b -> Rabs (b - (B + period / 2 + INR i * period)) <= J + 2 * drift.
Proof.
  intros P GAP D0 RI NE (phase & n & numbers & errors & PH & CK & LN & L1 & L2 & EQ & TO & JU & _) T DR HD F.
  assert (LC : length clk = n) by (rewrite CK, map_length, seq_length; reflexivity). rewrite LC in DR.
  pose proof (Rabs_pos (t - period)) as AP. pose proof (pos_INR n) as NP. assert (DT : Rabs (t - period) <= drift) by nra. apply Rabs_le_between in DT. apply Rabs_le_between in HD.
  assert (DN : Rabs (t - period) * INR n <= drift) by nra.
  assert (IN : forall x, In x es -> 0 <= x - hd 0 es <= INR n * t).
  { intros x I. assert (RL : forall l : list R, CdrSpec.rising l -> forall x, In x l -> hd 0 l <= x <= last l 0).
    { induction l as [|a [|b l'] IH]; intros R x0 I0; [destruct I0|destruct I0 as [->|[]]; cbn; lra|]. destruct R as (R1 & R2). specialize (IH R2). assert (HB := IH b (or_introl eq_refl)).
      change (last (a :: b :: l') 0) with (last (b :: l') 0). cbn [hd]. destruct I0 as [->|I0]; [split; [lra|]; lra|]. specialize (IH x0 I0). cbn [hd] in IH. lra. }
    specialize (RL es RI x I). lra. }
  assert (EF : Forall (fun x => exists c, Rabs (x - (IZR c * t - (phase - B))) <= J + drift) errors).
  { apply Forall_forall. intros er I. destruct (In_nth errors er 0 I) as (i & IL & <-). set (x := phase + IZR (nth i numbers 0%Z) * t + nth i errors 0).
    assert (IX : In x es). { rewrite EQ. apply in_map_iff. exists (nth i numbers 0%Z, nth i errors 0). split; [reflexivity|]. rewrite <- combine_nth by lia. apply nth_In. rewrite combine_length. lia. }
    rewrite Forall_forall in F. destruct (F x IX) as (z & Z0). apply Rabs_le_between in Z0. specialize (IN x IX).
    assert (ZL : (- 1 < z < Z.of_nat n + 1)%Z). { split; apply lt_IZR; [|rewrite plus_IZR, <- INR_IZR_INZ]; apply (Rmult_lt_reg_r period); try exact P; [lra|]. assert (INR n * t - INR n * period <= drift); [|lra]. assert (t - period <= Rabs (t - period)) by apply Rle_abs. nra. }
    assert (ZR : 0 <= IZR z <= INR n) by (rewrite (INR_IZR_INZ n); split; apply IZR_le; lia).
    assert (ZD : - drift <= IZR z * (period - t) <= drift). { assert (A : Rabs (IZR z * (period - t)) <= drift); [|apply Rabs_le_between; exact A]. rewrite Rabs_mult, (Rabs_right (IZR z)) by lra. rewrite (Rabs_minus_sym period t). assert (IZR z * Rabs (t - period) <= INR n * Rabs (t - period)) by (apply Rmult_le_compat_r; lra). lra. }
    exists (z - nth i numbers 0%Z)%Z. rewrite minus_IZR. apply Rabs_le. unfold x in Z0. lra. }
  destruct (one_offset t (phase - B) (J + drift) errors T ltac:(lra) JU EF) as (c & FC).
  pose proof (total_band _ _ _ FC) as TB. rewrite TO in TB. assert (EP : 0 < INR (length errors)) by (apply lt_0_INR; lia).
  assert (KB : - (J + drift) <= IZR c * t - (phase - B) <= J + drift).
  { split; apply (Rmult_le_reg_l (INR (length errors))); lra. }
  assert (C0 : (- 1 < c < 1)%Z) by (split; apply lt_IZR; apply (Rmult_lt_reg_r t); lra). assert (c = 0%Z) as -> by lia.
  intros i b NB. rewrite CK in NB. assert (IL : (i < n)%nat) by (rewrite <- LC, CK; apply nth_error_Some; congruence).
  rewrite nth_error_map, (nth_error_nth' _ 0%nat) in NB by (rewrite seq_length; exact IL). rewrite seq_nth in NB by exact IL. cbn [option_map] in NB. injection NB as <-.
  assert (II : INR i + 1 / 2 <= INR n + 1) by (apply lt_INR in IL; lra). pose proof (pos_INR i) as IP.
  assert (SD : - drift <= (INR i + 1 / 2) * (t - period) <= drift). { assert (A : Rabs ((INR i + 1 / 2) * (t - period)) <= drift); [|apply Rabs_le_between; exact A]. rewrite Rabs_mult, (Rabs_right (INR i + 1 / 2)) by lra. assert ((INR i + 1 / 2) * Rabs (t - period) <= (INR n + 1) * Rabs (t - period)) by (apply Rmult_le_compat_r; lra). lra. }
  apply Rabs_le. lra.
Qed.
Lemma clock_spaced es t resampled clk ties p : CdrSpec.clock_of es t resampled clk ties -> EyeRunSpec.adjacent clk p -> p = t.
Proof.
  intros (phase & n & numbers & errors & _ & CK & _) (i & a & b & A & B & ->). assert (LC : length clk = n) by (rewrite CK, map_length, seq_length; reflexivity).
  assert (IL : (S i < n)%nat) by (rewrite <- LC; apply nth_error_Some; congruence). rewrite CK in A, B. rewrite nth_error_map, (nth_error_nth' _ 0%nat), seq_nth in A by (rewrite ?seq_length; lia). rewrite nth_error_map, (nth_error_nth' _ 0%nat), seq_nth in B by (rewrite ?seq_length; lia).
  cbn [option_map] in A, B. assert (EA : a = phase + t / 2 + INR (0 + i) * t) by congruence. assert (EB : b = phase + t / 2 + INR (0 + S i) * t) by congruence. rewrite Nat.add_0_l in EA, EB. rewrite S_INR in EB. lra.
Qed.
Lemma rising_of (l : list R) : StronglySorted Rlt l -> CdrSpec.rising l.
Proof.
  induction 1 as [|a l S IH F]; [exact I|]. destruct l as [|b l]; [exact I|]. split; [|exact IH]. inversion_clear F. lra.
Qed.
Lemma sampled_sorted k period near td w s : 0 < td -> sampled k period near td w s -> StronglySorted Rlt (fst w) /\ length (fst w) = length (snd w).
Proof.
  intros TD (first & -> & _). split; [|rewrite map_length, seq_length; reflexivity]. generalize 0%nat. induction (length (snd w)) as [|n IH]; intros b; [constructor|]. cbn [seq map]. constructor; [apply IH|].
  apply Forall_forall. intros x I. apply in_map_iff in I. destruct I as (j & <- & I). apply in_seq in I. assert (B : (b < j)%nat) by lia. apply lt_INR in B. nra.
Qed.

Section Recovered.
Variable round6 : R -> R.
Variable fit : nat -> list R -> result (list (R * R * R)).
Variable aic : list (R * R * R) -> list R -> R.
Variable new_cdr : R -> cdr.
Variable percentile : list R -> R -> R.
Variable cast : R -> Z.
Variable fuel : nat.
Variable draw : drawing.
Let completed := completed round6 fit aic new_cdr percentile cast fuel draw.
Let find_levels := find_levels round6 fit aic.
(** The clock recovery an eye diagram uses: the configured one, or a new one. *)
Definition recovery (c : config) : cdr := match c_cdr c with Some r => r | None => new_cdr (c_fallback_period c) end.
(** What C67_data says of the reports. *)
Definition reports_data (e1 : eye) (m : measures) (k : bands) (t td : R) (records : list (list R * list R * list R)) (sent : list signal) : Prop :=
  exists parts, Forall2 (whole_part t td) records parts
    /\ n_sym m = Z.of_nat (length (concat (map numbers parts)))
    /\ (forall q, transition_dist m q = Z.of_nat (count_occ decision_dec (concat (map patterns (combine sent parts))) q))
    /\ bit_stream e1 true = Ok (map sent_changes (combine sent parts))
    /\ (Forall changes (combine sent parts) -> bit_stream e1 false = Ok (map sent_bits (combine sent parts)))
    /\ exists my u0 u1 ua, in_y m = Some my /\ m_y_0 my = Some u0 /\ m_y_1 my = Some u1 /\ m_amp my = Some ua
         /\ low_from k <= value u0 <= low_to k /\ high_from k <= value u1 <= high_to k /\ value ua = value u1 - value u0.

(** A signal whose clock is recovered from the signal itself, as C67_data for
    clock edges that were given.  The clock keeps the given period, or its
    period was found and does not drift from that of the signal by more than
    [drift] over a record. *)
Theorem C67_recovered d e m e1 edges t l k period near drift sent sort n_comp compiled fixed t0 resampled :
  completed d e m e1 edges t -> c_skip_measures (e_config e) = false -> width e t < 1 ->
  find_levels (e_config e) (all_samples (e_waveforms e)) d = Ok l -> low_to k <= l_half l < high_from k -> l_falling l <= l_rising l -> l_low_snr l = false ->
  e_clock_edges e = None -> e_clocks e = None ->
  (forall es, recovery (e_config e) es = CdrModel.run Int_part sort n_comp compiled fixed (Some t0) es resampled) -> CdrSpec.sorts sort -> (200000 <= n_comp)%Z -> 0 < t0 ->
  (if fixed then t0 = period /\ drift = 0 else forall clk, In clk edges -> (2 <= length clk)%nat /\ forall p, EyeRunSpec.adjacent clk p -> Rabs (p - period) * (INR (length clk) + 1) <= drift) ->
  0 < period -> near <= period / 2 -> 0 <= drift ->
  let jitter := period / 2 - near + e_t_delta e in
  4 * jitter + 5 * drift < period -> 3 * e_t_delta e + 2 * (jitter + 2 * drift) < period -> jitter + 3 * drift + e_t_delta e / 2 + width e t * t / 2 <= near ->
  Forall2 (sampled k period near (e_t_delta e)) (waves (e_waveforms e)) sent ->
  Rabs (t - period) <= drift /\ exists sent', Forall2 (fun s s' => exists n, s' = renumbered n s period) sent sent'
    /\ Forall2 (clocks period (jitter + 2 * drift)) edges sent'
    /\ reports_data e1 m k t (e_t_delta e) (combine (waves (e_waveforms e)) edges) sent'.
Proof.
  intros CO SK WD FL HALF HY SNR CE CC RE SO NC T0 FX P NH D0 jitter G1 G2 NEAR SA. pose proof CO as (CA & GC & PP & SP & TD).
  destruct (calculate_inv round6 fit aic new_cdr percentile cast fuel draw d e m e1 CA) as (l' & edges' & t' & h & dirs & im & FL' & CK & _ & _ & _ & _ & _ & _ & _ & EC & _ & CALC & _).
  assert (l' = l) as -> by (unfold find_levels in FL; congruence). unfold get_clock_edges in GC. rewrite CALC, EC in GC. assert (edges' = edges) as -> by congruence. clear GC FL'.
  unfold clock in CK. rewrite CE, CC in CK. cbn [EyeRunSpec.clock_source] in CK. apply CdrSearchProofs.mapM_spec in CK.
  assert (EACH : forall w clk s, In clk edges -> EyeRunSpec.clock_of new_cdr None (e_config e) l w = Ok clk -> sampled k period near (e_t_delta e) w s ->
     exists n, clocks period (jitter + 2 * drift) clk (renumbered n s period) /\ forall p, EyeRunSpec.adjacent clk p -> Rabs (p - period) <= drift).
  { intros w clk s IC E S. unfold EyeRunSpec.clock_of in E. rewrite SNR in E. fold (recovery (e_config e)) in E. unfold runner_cdr in E. destruct (selected_edges l (c_polarity (e_config e)) w) as [es|] eqn:SE; [|discriminate]. cbn [bind] in E.
    rewrite RE in E. destruct (CdrModel.run _ _ _ _ _ _ _ _) as [[clk' ties]|] eqn:RU; [|discriminate]. cbn in E. assert (clk' = clk) as -> by congruence. clear E.
    pose proof (edge_at_boundary k period near (e_t_delta e) w s l _ es TD P NH S HALF HY SE) as BD. fold jitter in BD.
    destruct (sampled_sorted k period near _ w s TD S) as (ST & LW). assert (NE : es <> []) by (intros ->; discriminate).
    assert (RI : CdrSpec.rising es).
    { destruct w as [tt y]. cbn [fst snd] in ST, LW. assert (NY : y <> []). { destruct es as [|x es]; [congruence|]. destruct (edge_between l _ tt y _ LW HY SE x (or_introl eq_refl)) as (j & (_ & a & b & SA' & _) & _). intros ->. unfold sample in SA'. destruct (j - 1)%nat; discriminate. }
      assert (OR : ordered l). { destruct (C57_thresholds _ _ _ _ _ _ _ FL) as (_ & _ & _ & _ & MID & _). unfold ordered. lra. }
      apply rising_of. exact (proj1 (C57_clock_edges l tt y LW NY ST OR) _ es SE). }
    destruct (CdrProps.C44_clock sort n_comp compiled fixed t0 es resampled clk ties SO NC T0 RI RU) as (L2 & _ & tc & TC & CO' & FT).
    assert (IH : In (hd 0 es) es) by (destruct es; [congruence|left; reflexivity]). destruct (BD _ IH) as (n0 & HB).
    assert (DR : Rabs (tc - period) * (INR (length clk) + 1) <= drift).
    { destruct fixed; [destruct FX as (-> & ->); subst tc; replace (period - period) with 0 by lra; rewrite Rabs_R0; lra|]. destruct (FX clk IC) as (LC & PC).
      destruct clk as [|a [|b clk]]; [cbn in LC; lia|cbn in LC; lia|]. assert (A : EyeRunSpec.adjacent (a :: b :: clk) (b - a)) by (exists 0%nat, a, b; repeat split). rewrite <- (clock_spaced _ _ _ _ _ _ CO' A). apply PC. exact A. }
    exists n0. split.
    - intros i b NB. assert (FZ : Forall (fun x => exists z, Rabs (x - (boundary period s n0 + IZR z * period)) <= jitter) es).
      { apply Forall_forall. intros x IX. destruct (BD x IX) as (n & B). exists (n - n0)%Z. rewrite minus_IZR. unfold boundary, middle in *  . replace (x - (fst s + IZR n0 * period - period / 2 + (IZR n - IZR n0) * period)) with (x - (fst s + IZR n * period - period / 2)) by lra. exact B. }
      pose proof (clock_near period jitter drift (boundary period s n0) es tc resampled clk ties P G1 D0 RI ltac:(lia) CO' TC DR HB FZ i b NB) as Q.
      unfold middle at 1. unfold renumbered. cbn [fst]. rewrite <- INR_IZR_INZ. unfold boundary in Q. replace (middle period s n0 + INR i * period) with (middle period s n0 - period / 2 + period / 2 + INR i * period) by lra. exact Q.
    - intros p A. rewrite (clock_spaced _ _ _ _ _ _ CO' A). pose proof (Rabs_pos (tc - period)). pose proof (pos_INR (length clk)). nra. }
  assert (ALL : forall ws es ss, Forall2 (fun w clk => EyeRunSpec.clock_of new_cdr None (e_config e) l w = Ok clk) ws es -> Forall2 (sampled k period near (e_t_delta e)) ws ss -> (forall clk, In clk es -> In clk edges) ->
     exists sent', Forall2 (fun s s' => exists n, s' = renumbered n s period) ss sent' /\ Forall2 (clocks period (jitter + 2 * drift)) es sent' /\ (forall clk p, In clk es -> EyeRunSpec.adjacent clk p -> Rabs (p - period) <= drift)
     /\ Forall2 (record_of k period near (jitter + 2 * drift) (e_t_delta e)) (combine ws es) sent').
  { intros ws es ss F. revert ss. induction F as [|w clk ws es E F IH]; intros ss S SUB; inversion S as [|? s ? ss' S1 S2]; subst; [exists []; split; [constructor|split; [constructor|split; [intros ? ? []|constructor]]]|].
    destruct (IH ss' S2 (fun c I => SUB c (or_intror I))) as (sent' & A1 & A2 & A3 & A4). destruct (EACH w clk s (SUB clk (or_introl eq_refl)) E S1) as (n & B1 & B2). exists (renumbered n s period :: sent').
    split; [constructor; [exists n; reflexivity|exact A1]|]. split; [constructor; assumption|]. split; [intros c p [<-|I]; [apply B2|apply A3; exact I]|]. cbn [combine]. constructor; [|exact A4]. split; [|exact B1]. cbn [fst snd].
    intros first F0 j z J N. destruct S1 as (first' & FT & CA'). assert (first' = first) as ->. { rewrite FT in F0. destruct (snd w) as [|v y]; [cbn in J; lia|]. cbn in F0. injection F0 as <-. lra. }
    unfold renumbered. cbn [snd]. apply CA'; [exact J|]. unfold middle, renumbered in N |- * . cbn [fst] in N. unfold middle in N. rewrite plus_IZR. replace (fst s + (IZR z + IZR n) * period) with (fst s + IZR n * period + IZR z * period) by lra. exact N. }
  destruct (ALL _ _ _ CK SA (fun c I => I)) as (sent' & A1 & A2 & A3 & A4).
  assert (TP : Rabs (t - period) <= drift).
  { destruct (list_eq_dec Req_EM_T (periods edges) []) as [NP|NP].
    - exfalso. unfold symbol_period in SP. destruct edges as [|x ll]; [discriminate|]. fold (periods (x :: ll)) in SP. rewrite NP in SP. discriminate.
    - assert (IP : exists p, EyeRunSpec.is_period edges p) by (destruct (periods edges) as [|p ps] eqn:PE; [congruence|]; exists p; apply periods_In; rewrite PE; left; reflexivity).
      destruct (C57_period edges IP PP) as (T' & ST & RG & _). assert (T' = t) as -> by congruence. specialize (RG (period - drift) (period + drift)).
      assert (Q : period - drift <= t <= period + drift); [|apply Rabs_le; lra]. apply RG. intros p (clk & I & A). specialize (A3 clk p I A). apply Rabs_le_between in A3. lra. }
  split; [exact TP|]. exists sent'. split; [exact A1|]. split; [exact A2|].
  refine (C67_data round6 fit aic new_cdr percentile cast fuel draw d e m e1 edges t l k period near (jitter + 2 * drift) sent' CO SK WD FL HALF _ _ A4); [lra|lra].
Qed.
End Recovered.
Print Assumptions C67_recovered.
