(** C72: eye diagrams of signals whose clock is searched for. *)
From Coq Require Import ZArith Reals Bool List Lia Lra Sorted Permutation.
Import ListNotations.
From Verif Require Import Base Num RBool LinesSpec StatsModel EyeSpec Pam2Model Pam2Spec MathModel EyeImageModel EyeRunModel EyeRunSpec EyeRunProofs EyeRunPeriod EyeLevelsProofs EyeLevelsProps EyeReportSpec EyeReportProps EyeDataSpec EyeDataProps EyeClockProps EyeOpenSpec EyeOpenProofs EyeOpenProps.
From Verif Require EyeModel EyeImageSpec EyeImageProps CdrModel CdrSpec CdrProps CdrRunProofs CdrJitterSpec CdrJitterProofs CdrJitterProps EyeRunSpec.
Local Open Scope R_scope.

(** Edges that a clock can be recovered from: more than half a period and at
    most 20 periods apart, [m] periods on average or fewer. *)
Definition steady (period m : R) (es : list R) : Prop :=
  (forall d, In d (CdrSpec.gaps es) -> period / 2 < d <= 20 * period) /\ last es 0 - hd 0 es <= m * (INR (length es) - 1) * period.

Lemma number_them J start T es : 0 < T -> 25 * J <= T -> (forall d, In d (CdrSpec.gaps es) -> T / 2 < d <= 20 * T) -> Forall (fun x => exists z, Rabs (x - (start + IZR z * T)) <= J) es ->
  exists ks, CdrJitterSpec.jittered J start T es ks /\ Sorted Z.lt ks /\ CdrSpec.gaps_at_most 20 ks.
Proof.
  intros P J25 G F. induction F as [|x es (z & Z) F IH]; [exists []; split; [constructor|split; [constructor|exact I]]|].
  destruct es as [|y es]; [exists [z]; split; [apply Forall2_cons; [exact Z|apply Forall2_nil]|split; [repeat constructor|exact I]]|].
  destruct IH as (ks & JT & SS & GA); [intros d D; apply G; right; exact D|]. inversion JT as [|? k ? ks' K JT']; subst. exists (z :: k :: ks').
  assert (D : T / 2 < y - x <= 20 * T) by (apply G; left; reflexivity). apply Rabs_le_between in Z as Z'. apply Rabs_le_between in K as K'.
  assert (ZK : (0 < k - z < 21)%Z). { split; apply lt_IZR; rewrite minus_IZR; apply (Rmult_lt_reg_r T); lra. }
  split; [constructor; assumption|]. split; [constructor; [exact SS|constructor; lia]|]. split; [lia|exact GA].
Qed.
Lemma track J start T t0 m es sort n_comp compiled resampled clk ties : 0 < T -> 25 * J <= T -> (7 * m + 7) * J < T -> CdrSpec.sorts sort -> (200000 <= n_comp)%Z -> 0 < t0 -> 99 / 100 * t0 <= T <= 101 / 100 * t0 ->
  Forall (fun x => exists z, Rabs (x - (start + IZR z * T)) <= J) es -> steady T m es -> CdrModel.run Int_part sort n_comp compiled false (Some t0) es resampled = Ok (clk, ties) ->
  exists k0 k1, (forall i c, nth_error clk i = Some c -> Rabs (c - (start + (IZR k0 + INR i + 1 / 2) * T)) <= (7 / 2 * m + 5 / 2) * J) /\ (forall p, EyeRunSpec.adjacent clk p -> Rabs (p - T) <= 2 * J)
    /\ Rabs (hd 0 es - (start + IZR k0 * T)) <= J /\ Rabs (last es 0 - (start + IZR k1 * T)) <= J /\ (k1 - k0 <= Z.of_nat (length clk))%Z.
Proof.
  intros P J25 JM SO NC T0 TR F (G & DU) RU. destruct (number_them J start T es P J25 G F) as (ks & JT & SS & GA). apply Sorted_StronglySorted in SS; [|intros a b c; lia].
  pose proof (CdrJitterProofs.jittered_length _ _ _ _ _ JT) as LK.
  assert (L2 : (2 <= length es)%nat). { destruct es as [|a [|b es]]; [discriminate|discriminate|cbn; lia]. }
  destruct ks as [|k0 ks]; [cbn in LK; lia|]. destruct es as [|e0 es]; [cbn in L2; lia|]. assert (H0 : Rabs (e0 - (start + IZR k0 * T)) <= J) by (inversion_clear JT; assumption).
  assert (J0 : 0 <= J) by (pose proof (Rabs_pos (e0 - (start + IZR k0 * T))); lra). pose proof (CdrJitterProofs.jittered_last _ _ _ _ _ _ JT) as HL. pose proof H0 as H0'. pose proof HL as HL'. apply Rabs_le_between in H0. apply Rabs_le_between in HL.
  assert (N2 : 2 <= INR (length (e0 :: es))) by (apply (le_INR 2); exact L2). set (n := INR (length (e0 :: es))) in *  . cbn [hd] in DU.
  assert (DM : IZR (CdrJitterSpec.duration (k0 :: ks)) <= (m + 1 / 10) * (n - 1)). { unfold CdrJitterSpec.duration. cbn [hd]. rewrite minus_IZR. apply (Rmult_le_reg_r T); [exact P|]. assert (1 * T <= (n - 1) * T) by (apply Rmult_le_compat_r; lra). lra. }
  destruct (CdrJitterProps.C72_clock sort n_comp compiled t0 T J start (m + 1 / 10) (e0 :: es) (k0 :: ks) resampled clk ties SO NC T0 TR JT SS GA DM J25 ltac:(lra) RU) as (PE & (LC & _) & CL & _). fold n in PE.
  exists k0, (last (k0 :: ks) 0%Z). split; [|split; [|split; [exact H0'|split; [exact HL'|exact LC]]]].
  - intros i c Q. specialize (CL i c Q). cbn [hd] in CL. eapply Rle_trans; [exact CL|]. apply Rmult_le_compat_r; lra.
  - intros p (i & a & b & A & B & ->). apply (CdrJitterProofs.period_close _ _ _ n J0 N2). apply PE. exists i, a, b. repeat split; assumption.
Qed.
(** Few enough periods for the search. *)
Definition searchable (period : R) (n_comp : Z) (es : list R) : Prop :=
  let d := (last es 0 - hd 0 es) / period in (d + 17) * (d + 2) <= 8 * IZR n_comp.
Lemma track_runs J start T t0 m es sort n_comp compiled resampled : 0 < T -> 25 * J <= T -> (7 * m + 7) * J < T -> CdrSpec.sorts sort -> (200000 <= n_comp)%Z -> 0 < t0 <= 900 -> 99 / 100 * t0 <= T <= 101 / 100 * t0 ->
  Forall (fun x => exists z, Rabs (x - (start + IZR z * T)) <= J) es -> steady T m es -> m <= 49 / 10 -> (2 <= length es)%nat -> searchable T n_comp es ->
  exists clk ties, CdrModel.run Int_part sort n_comp compiled false (Some t0) es resampled = Ok (clk, ties).
Proof.
  intros P J25 JM SO NC T0 TR F (G & DU) M5 L2 SE. destruct (number_them J start T es P J25 G F) as (ks & JT & SS & GA). apply Sorted_StronglySorted in SS; [|intros a b c; lia].
  pose proof (CdrJitterProofs.jittered_length _ _ _ _ _ JT) as LK.
  destruct ks as [|k0 ks]; [cbn in LK; lia|]. destruct es as [|e0 es]; [cbn in L2; lia|]. assert (H0 : Rabs (e0 - (start + IZR k0 * T)) <= J) by (inversion_clear JT; assumption).
  assert (J0 : 0 <= J) by (pose proof (Rabs_pos (e0 - (start + IZR k0 * T))); lra). pose proof (CdrJitterProofs.jittered_last _ _ _ _ _ _ JT) as HL. apply Rabs_le_between in H0. apply Rabs_le_between in HL.
  assert (N2 : 2 <= INR (length (e0 :: es))) by (apply (le_INR 2); exact L2). set (n := INR (length (e0 :: es))) in *  . cbn [hd] in DU.
  assert (DM : IZR (CdrJitterSpec.duration (k0 :: ks)) <= (m + 1 / 10) * (n - 1)). { unfold CdrJitterSpec.duration. cbn [hd]. rewrite minus_IZR. apply (Rmult_le_reg_r T); [exact P|]. assert (1 * T <= (n - 1) * T) by (apply Rmult_le_compat_r; lra). lra. }
  apply (CdrJitterProps.C72_recovers sort n_comp compiled t0 T J start (m + 1 / 10) (e0 :: es) (k0 :: ks) resampled SO NC T0 TR JT SS GA L2 DM ltac:(lra) J25 ltac:(lra)).
  assert (NN : (0 <= CdrJitterSpec.duration (k0 :: ks))%Z). { unfold CdrJitterSpec.duration. cbn [hd]. assert (I : In (last (k0 :: ks) 0%Z) (k0 :: ks)) by (destruct (exists_last (l := k0 :: ks)) as (q & z & ->); [discriminate|]; rewrite last_last; apply in_or_app; right; left; reflexivity).
    destruct I as [<-|I]; [lia|]. inversion SS as [|? ? _ FA]; subst. rewrite Forall_forall in FA. specialize (FA _ I). lia. }
  unfold searchable in SE. cbn [hd] in SE. set (d := (last (e0 :: es) 0 - e0) / T) in *  . assert (D : IZR (CdrJitterSpec.duration (k0 :: ks)) <= d + 1).
  { unfold CdrJitterSpec.duration. cbn [hd]. rewrite minus_IZR. unfold d. apply (Rmult_le_reg_r T); [exact P|]. replace (((last (e0 :: es) 0 - e0) / T + 1) * T) with (last (e0 :: es) 0 - e0 + T) by (field; lra). lra. }
  apply le_IZR. rewrite !mult_IZR, !plus_IZR. apply IZR_le in NN. set (N := IZR (CdrJitterSpec.duration (k0 :: ks))) in *  . eapply Rle_trans; [|exact SE]. apply Rmult_le_compat; lra.
Qed.

Lemma near_period edges t period d : (forall p, is_period edges p -> 0 < p) -> symbol_period edges = Ok (Some t) -> (forall clk p, In clk edges -> EyeRunSpec.adjacent clk p -> Rabs (p - period) <= d) -> Rabs (t - period) <= d.
Proof.
  intros PP SP A. destruct (list_eq_dec Req_EM_T (periods edges) []) as [NP|NP].
  - exfalso. unfold symbol_period in SP. destruct edges as [|x ll]; [discriminate|]. fold (periods (x :: ll)) in SP. rewrite NP in SP. discriminate.
  - assert (IP : exists p, EyeRunSpec.is_period edges p) by (destruct (periods edges) as [|p ps] eqn:PE; [congruence|]; exists p; apply periods_In; rewrite PE; left; reflexivity).
    destruct (C57_period edges IP PP) as (T' & ST' & RG & _). assert (T' = t) as -> by congruence. specialize (RG (period - d) (period + d)).
    assert (Q : period - d <= t <= period + d); [|apply Rabs_le; lra]. apply RG. intros p (clk & I & AD). specialize (A clk p I AD). apply Rabs_le_between in A. lra.
Qed.

Section Track.
Variable round6 : R -> R.
Variable fit : nat -> list R -> result (list (R * R * R)).
Variable aic : list (R * R * R) -> list R -> R.
Variable new_cdr : R -> cdr.
Variable percentile : list R -> R -> R.
Variable cast : R -> Z.
Variable fuel : nat.
Variable draw : drawing.
Let completed := completed round6 fit aic new_cdr percentile cast fuel draw.
Let find_levels := find_levels round6 fit aic.
Lemma each_record l p k period near td w s clk ties es mean_run sort n_comp compiled t0 resampled : 0 < td -> 0 < period -> near <= period / 2 -> sampled k period near td w s ->
  low_to k <= l_half l < high_from k -> l_falling l <= l_rising l -> selected_edges l p w = Ok es -> CdrModel.run Int_part sort n_comp compiled false (Some t0) es resampled = Ok (clk, ties) ->
  CdrSpec.sorts sort -> (200000 <= n_comp)%Z -> 0 < t0 -> 99 / 100 * t0 <= period <= 101 / 100 * t0 -> steady period mean_run es ->
  let jitter := period / 2 - near + td in
  let off := (7 / 2 * mean_run + 5 / 2) * jitter in
  25 * jitter <= period -> (7 * mean_run + 7) * jitter < period ->
  exists n0, clocks period off clk (renumbered n0 s period) /\ (forall q, EyeRunSpec.adjacent clk q -> Rabs (q - period) <= 2 * jitter)
    /\ (forall n, hd 0 es <= middle period s n <= last es 0 -> exists i b, nth_error clk i = Some b /\ Z.of_nat i = (n - n0)%Z)
    /\ last es 0 - hd 0 es <= (INR (length clk) + 1) * period
    /\ record_of k period near off td (w, clk) (renumbered n0 s period).
Proof.
  intros TD P NH S HALF HY SE RU SO NC T0 TR ST jitter off J25 JM. pose proof (edge_at_boundary k period near td w s l _ es TD P NH S HALF HY SE) as BD. fold jitter in BD.
  destruct (track jitter (fst s - period / 2) period t0 mean_run es sort n_comp compiled resampled clk ties P J25 JM SO NC T0 TR) as (k0 & k1 & CL & AD & H0 & H1 & LC); [|exact ST|exact RU|].
  { apply Forall_forall. intros x X. destruct (BD x X) as (n & B). exists n. unfold boundary, middle in B. replace (x - (fst s - period / 2 + IZR n * period)) with (x - (fst s + IZR n * period - period / 2)) by ring. exact B. }
  apply Rabs_le_between in H0. apply Rabs_le_between in H1.
  assert (CK : clocks period off clk (renumbered k0 s period)).
  { intros i b NB. specialize (CL i b NB). fold off in CL. unfold middle, renumbered. cbn [fst]. unfold middle. rewrite <- INR_IZR_INZ. replace (fst s + IZR k0 * period + INR i * period) with (fst s - period / 2 + (IZR k0 + INR i + 1 / 2) * period) by field. exact CL. }
  exists k0. split; [exact CK|]. split; [exact AD|]. split; [|split].
  - intros n N. unfold middle in N. assert (B : (k0 - 1 < n < k1)%Z). { split; apply lt_IZR; rewrite ?minus_IZR; apply (Rmult_lt_reg_r period); lra. }
    exists (Z.to_nat (n - k0)). destruct (nth_error clk (Z.to_nat (n - k0))) as [b|] eqn:E; [exists b; split; [reflexivity|lia]|]. apply nth_error_None in E. lia.
  - apply IZR_le in LC. rewrite minus_IZR, <- INR_IZR_INZ in LC. apply (Rmult_le_compat_r period) in LC; [lra|lra].
  - split; [|exact CK]. cbn [fst snd].
    intros first F0 j z J N. destruct S as (first' & FT & CA'). assert (first' = first) as ->. { rewrite FT in F0. destruct (snd w) as [|v y]; [cbn in J; lia|]. cbn in F0. injection F0 as <-. lra. }
    unfold renumbered. cbn [snd]. apply CA'; [exact J|]. unfold middle, renumbered in N |- * . cbn [fst] in N. unfold middle in N. rewrite plus_IZR. replace (fst s + (IZR z + IZR k0) * period) with (fst s + IZR k0 * period + IZR z * period) by lra. exact N.
Qed.
Lemma all_records l c k period near td mean_run sort n_comp compiled t0 resampled : 0 < td -> 0 < period -> near <= period / 2 ->
  low_to k <= l_half l < high_from k -> l_falling l <= l_rising l -> l_low_snr l = false ->
  (forall es, recovery new_cdr c es = CdrModel.run Int_part sort n_comp compiled false (Some t0) es resampled) ->
  CdrSpec.sorts sort -> (200000 <= n_comp)%Z -> 0 < t0 -> 99 / 100 * t0 <= period <= 101 / 100 * t0 ->
  let jitter := period / 2 - near + td in
  let off := (7 / 2 * mean_run + 5 / 2) * jitter in
  25 * jitter <= period -> (7 * mean_run + 7) * jitter < period ->
  forall ws edges ss, Forall2 (fun w clk => EyeRunSpec.clock_of new_cdr None c l w = Ok clk) ws edges -> Forall2 (sampled k period near td) ws ss ->
  (forall w es, In w ws -> selected_edges l (c_polarity c) w = Ok es -> steady period mean_run es) ->
  exists sent', Forall2 (fun s s' => exists n, s' = renumbered n s period) ss sent' /\ Forall2 (clocks period off) edges sent' /\ (forall clk p, In clk edges -> EyeRunSpec.adjacent clk p -> Rabs (p - period) <= 2 * jitter)
    /\ Forall2 (record_of k period near off td) (combine ws edges) sent'
    /\ (forall w s es n, In (w, s) (combine ws ss) -> selected_edges l (c_polarity c) w = Ok es -> hd 0 es <= middle period s n <= last es 0 ->
          exists clk s' i b, In ((w, clk), s') (combine (combine ws edges) sent') /\ nth_error clk i = Some b /\ pattern s' (Z.of_nat i) = pattern s n /\ Rabs (b - middle period s n) <= off)
    /\ (forall w es, In w ws -> selected_edges l (c_polarity c) w = Ok es -> exists clk, In clk edges /\ last es 0 - hd 0 es <= (INR (length clk) + 1) * period).
Proof.
  intros TD P NH HALF HY SNR RE SO NC T0 TR jitter off J25 JM ws edges ss F. revert ss.
  induction F as [|w clk ws edges E F IH]; intros ss S ST; inversion S as [|? s ? ss' S1 S2]; subst; [exists []; split; [constructor|split; [constructor|split; [intros ? ? []|split; [constructor|split; [intros ? ? ? ? []|intros ? ? []]]]]]|].
  destruct (IH ss' S2 (fun w' es I => ST w' es (or_intror I))) as (sent' & A1 & A2 & A3 & A4 & A5 & A6).
  unfold EyeRunSpec.clock_of in E. rewrite SNR in E. fold (recovery new_cdr c) in E. unfold runner_cdr in E. destruct (selected_edges l (c_polarity c) w) as [es|] eqn:SE; [|discriminate]. cbn [bind] in E.
  rewrite RE in E. destruct (CdrModel.run _ _ _ _ _ _ _ _) as [[clk' ties]|] eqn:RU; [|discriminate]. cbn in E. assert (clk' = clk) as -> by congruence. clear E.
  destruct (each_record l _ k period near td w s clk ties es mean_run sort n_comp compiled t0 resampled TD P NH S1 HALF HY SE RU SO NC T0 TR (ST w es (or_introl eq_refl) SE) J25 JM) as (n0 & CK & AD & COV & DU & RO). fold jitter in AD. fold jitter off in CK, RO.
  exists (renumbered n0 s period :: sent'). split; [constructor; [exists n0; reflexivity|exact A1]|]. split; [constructor; assumption|]. split; [intros c' p [<-|I]; [apply AD|apply A3; exact I]|]. split; [cbn [combine]; constructor; assumption|]. split.
  - intros w' s' es' n [I|I] SE' N.
    + assert (w' = w) as -> by congruence. assert (s' = s) as -> by congruence. assert (es' = es) as -> by congruence. destruct (COV n N) as (i & b & NB & IN). exists clk, (renumbered n0 s period), i, b.
      split; [left; reflexivity|]. split; [exact NB|]. pose proof (CK i b NB) as Q. rewrite IN in Q |- * . split; [unfold pattern, renumbered; cbn [snd]; f_equal; [f_equal|]; f_equal; lia|].
      unfold middle, renumbered in Q. cbn [fst] in Q. unfold middle in Q. rewrite minus_IZR in Q. unfold middle. replace (fst s + IZR n * period) with (fst s + IZR n0 * period + (IZR n - IZR n0) * period) by ring. exact Q.
    + destruct (A5 w' s' es' n I SE' N) as (c' & s2 & i & b & I2 & Q). exists c', s2, i, b. split; [right; exact I2|exact Q].
  - intros w' es' [<-|I] SE'; [assert (es' = es) as -> by congruence; exists clk; split; [left; reflexivity|exact DU]|]. destruct (A6 w' es' I SE') as (c' & I' & Q). exists c'. split; [right; exact I'|exact Q].
Qed.
(** As C67_recovered, for a clock whose period is searched for, with nothing
    assumed of the clock: the given period is within 1 % and the edges found in
    each record are steady.  [jitter] is that of the edges, from noise and sampling. *)
Theorem C72_signal d e m e1 edges t l k period near mean_run sent sort n_comp compiled t0 resampled :
  completed d e m e1 edges t -> c_skip_measures (e_config e) = false -> width e t < 1 ->
  find_levels (e_config e) (all_samples (e_waveforms e)) d = Ok l -> low_to k <= l_half l < high_from k -> l_falling l <= l_rising l -> l_low_snr l = false ->
  e_clock_edges e = None -> e_clocks e = None ->
  (forall es, recovery new_cdr (e_config e) es = CdrModel.run Int_part sort n_comp compiled false (Some t0) es resampled) -> CdrSpec.sorts sort -> (200000 <= n_comp)%Z -> 0 < t0 ->
  99 / 100 * t0 <= period <= 101 / 100 * t0 -> near <= period / 2 ->
  (forall w es, In w (waves (e_waveforms e)) -> selected_edges l (c_polarity (e_config e)) w = Ok es -> steady period mean_run es) ->
  let jitter := period / 2 - near + e_t_delta e in
  let off := (7 / 2 * mean_run + 5 / 2) * jitter in
  25 * jitter <= period -> (7 * mean_run + 7) * jitter < period -> 3 * e_t_delta e + 2 * off < period -> off + e_t_delta e / 2 + 2 * jitter + width e t * t / 2 <= near ->
  Forall2 (sampled k period near (e_t_delta e)) (waves (e_waveforms e)) sent ->
  Rabs (t - period) <= 2 * jitter /\ exists sent', Forall2 (fun s s' => exists n, s' = renumbered n s period) sent sent'
    /\ Forall2 (clocks period off) edges sent'
    /\ reports_data e1 m k t (e_t_delta e) (combine (waves (e_waveforms e)) edges) sent'.
Proof.
  intros CO SK WD FL HALF HY SNR CE CC RE SO NC T0 TR NH ST jitter off J25 JM G2 NEAR SA. pose proof CO as (CA & GC & PP & SP & TD). assert (P : 0 < period) by lra.
  destruct (calculate_inv round6 fit aic new_cdr percentile cast fuel draw d e m e1 CA) as (l' & edges' & t' & h & dirs & im & FL' & CK & _ & _ & _ & _ & _ & _ & _ & EC & _ & CALC & _).
  assert (l' = l) as -> by (unfold find_levels in FL; congruence). unfold get_clock_edges in GC. rewrite CALC, EC in GC. assert (edges' = edges) as -> by congruence. clear GC FL'.
  unfold clock in CK. rewrite CE, CC in CK. cbn [EyeRunSpec.clock_source] in CK. apply CdrSearchProofs.mapM_spec in CK.
  destruct (all_records l (e_config e) k period near (e_t_delta e) mean_run sort n_comp compiled t0 resampled TD P NH HALF HY SNR RE SO NC T0 TR J25 JM _ _ _ CK SA ST) as (sent' & A1 & A2 & A3 & A4 & _).
  fold jitter in A3. fold jitter off in A2, A4.
  assert (TP : Rabs (t - period) <= 2 * jitter) by exact (near_period edges t period (2 * jitter) PP SP A3).
  split; [exact TP|]. exists sent'. split; [exact A1|]. split; [exact A2|].
  refine (C67_data round6 fit aic new_cdr percentile cast fuel draw d e m e1 edges t l k period near off sent' CO SK WD FL HALF _ _ A4); [exact G2|lra].
Qed.
Lemma usable_calculated e l edges t k period near jitter sent dev : find_levels (e_config e) (all_samples (e_waveforms e)) false = Ok l -> low_to k <= l_half l < high_from k ->
  e_clock_edges e = Some edges -> symbol_period edges = Ok (Some t) -> (forall p, is_period edges p -> 0 < p) -> 0 < e_t_delta e ->
  (length (waves (e_waveforms e)) <= length edges)%nat -> (forall w, In w (waves (e_waveforms e)) -> fst w <> []) ->
  Rabs (t - period) <= dev -> usable_mask draw k period dev e ->
  (1 <= e_resolution e)%Z -> c_point_cloud (e_config e) = true -> c_skip_measures (e_config e) = false ->
  - (1 / 2) <= c_edge_lower (e_config e) < 3 / 2 -> - (1 / 2) <= c_edge_upper (e_config e) < 3 / 2 ->
  101 / 100 * e_t_delta e / t <= c_level_width (e_config e) < 1 -> e_t_delta e <= c_cross_width (e_config e) * t -> c_cross_width (e_config e) <= 1 ->
  3 * e_t_delta e + 2 * jitter < period -> jitter + e_t_delta e / 2 + Rabs (t - period) + c_level_width (e_config e) * t / 2 <= near ->
  let records := combine (waves (e_waveforms e)) edges in
  Forall2 (record_of k period near jitter (e_t_delta e)) records sent ->
  has_symbol t (e_t_delta e) records sent (fun p => cur p = true) -> has_symbol t (e_t_delta e) records sent (fun p => cur p = false) ->
  has_symbol t (e_t_delta e) records sent (fun p => prev p <> cur p) ->
  exists m e1, completed false e m e1 edges t /\ width e t = c_level_width (e_config e).
Proof.
  intros FL HALF CE SP PP TD LE NE DV UM.
  exact (C67_calculated round6 fit aic new_cdr percentile cast fuel draw e l edges t k period near jitter sent FL HALF CE SP PP TD LE NE (usable_less draw k period dev _ e DV UM)).
Qed.
(** The clock a run recovers can be given instead. *)
Lemma given_clock d e l edges m e2 t : find_levels (e_config e) (all_samples (e_waveforms e)) d = Ok l -> clock new_cdr e l = Ok edges -> e_clock_edges e = None ->
  completed d (set_clock edges [] e) m e2 edges t -> exists e1, completed d e m e1 edges t.
Proof.
  intros FL CK CE (CA & GC & PP & SP & TD).
  destruct (calculate_inv round6 fit aic new_cdr percentile cast fuel draw d _ m e2 CA) as (l' & edges' & t' & h & dirs & im & FL' & CK' & SP' & PL & RS & _).
  assert (Q : Ok l' = Ok l) by (rewrite <- FL', <- FL; reflexivity). injection Q as ->. unfold clock in CK'. cbn [e_clock_edges set_clock] in CK'. assert (edges' = edges) as -> by congruence. assert (t' = t) as -> by congruence.
  destruct (calculate_eq round6 fit aic new_cdr percentile cast fuel draw d e l edges t m h dirs im _ FL CK SP ltac:(intros _; left; exact CE) RS) as (e1 & C1 & _ & _ & _ & _ & EC & CALC).
  exists e1. split; [exact C1|]. split; [unfold get_clock_edges; rewrite CALC, EC; reflexivity|]. split; [exact PP|]. split; [exact SP|exact TD].
Qed.
(** A symbol between the first and last edge found and well inside its record. *)
Definition in_sight (l : levels) (p : polarity) (period td : R) (ws : list (list R * list R)) (sent : list signal) (P : decision -> Prop) : Prop :=
  exists w s es first n, In (w, s) (combine ws sent) /\ selected_edges l p w = Ok es /\ nth_error (fst w) 0 = Some first /\ hd 0 es <= middle period s n <= last es 0
    /\ first + 3 / 2 * period + 4 * td <= middle period s n /\ middle period s n + 3 / 2 * period + 3 * td <= end_time td first (length (fst w)) /\ P (pattern s n).
(** Nothing assumed of the clock or of the run: it completes and reports the data. *)
Theorem C72_calculated e l k period near mean_run sent sort n_comp compiled t0 resampled :
  find_levels (e_config e) (all_samples (e_waveforms e)) false = Ok l -> low_to k <= l_half l < high_from k -> l_falling l <= l_rising l -> l_low_snr l = false ->
  e_clock_edges e = None -> e_clocks e = None ->
  (forall es, recovery new_cdr (e_config e) es = CdrModel.run Int_part sort n_comp compiled false (Some t0) es resampled) -> CdrSpec.sorts sort -> (200000 <= n_comp)%Z -> 0 < t0 <= 900 ->
  99 / 100 * t0 <= period <= 101 / 100 * t0 -> near <= period / 2 -> mean_run <= 49 / 10 ->
  (forall w, In w (waves (e_waveforms e)) -> exists es, selected_edges l (c_polarity (e_config e)) w = Ok es /\ (2 <= length es)%nat /\ steady period mean_run es /\ searchable period n_comp es) ->
  (exists w es, In w (waves (e_waveforms e)) /\ selected_edges l (c_polarity (e_config e)) w = Ok es /\ 5 / 2 * period < last es 0 - hd 0 es) ->
  0 < e_t_delta e -> usable_mask draw k period (2 * (period / 2 - near + e_t_delta e)) e -> (1 <= e_resolution e)%Z -> c_point_cloud (e_config e) = true -> c_skip_measures (e_config e) = false ->
  - (1 / 2) <= c_edge_lower (e_config e) < 3 / 2 -> - (1 / 2) <= c_edge_upper (e_config e) < 3 / 2 ->
  let jitter := period / 2 - near + e_t_delta e in
  let off := (7 / 2 * mean_run + 5 / 2) * jitter in
  let width := c_level_width (e_config e) in
  101 / 100 * e_t_delta e <= width * (period - 2 * jitter) -> width < 1 -> e_t_delta e <= c_cross_width (e_config e) * (period - 2 * jitter) -> c_cross_width (e_config e) <= 1 ->
  25 * jitter <= period -> (7 * mean_run + 7) * jitter < period -> 3 * e_t_delta e + 2 * off < period -> off + e_t_delta e / 2 + 2 * jitter + width * (period + 2 * jitter) / 2 <= near ->
  Forall2 (sampled k period near (e_t_delta e)) (waves (e_waveforms e)) sent ->
  let sees := in_sight l (c_polarity (e_config e)) period (e_t_delta e) (waves (e_waveforms e)) sent in
  sees (fun p => cur p = true) -> sees (fun p => cur p = false) -> sees (fun p => prev p <> cur p) ->
  exists m e1 edges t sent', completed false e m e1 edges t /\ Rabs (t - period) <= 2 * jitter
    /\ Forall2 (fun s s' => exists n, s' = renumbered n s period) sent sent' /\ Forall2 (clocks period off) edges sent'
    /\ reports_data e1 m k t (e_t_delta e) (combine (waves (e_waveforms e)) edges) sent'.
Proof.
  intros FL HALF HY SNR CE CC RE SO NC T0 TR NH M5 EACH LONG TD UM RS PC SK EL EU jitter off wd LW LW1 CW CW1 J25 JM G2 NEAR SA sees S1 S0 SX. assert (P : 0 < period) by lra.
  assert (J0 : 0 < jitter) by (unfold jitter; lra). assert (W0 : 0 < wd) by nra. assert (C0 : 0 < c_cross_width (e_config e)) by nra.
  assert (OFF : 0 <= off). { destruct S1 as (w & s & es & f & n & I & SE & F0 & N & I1 & I2 & _). apply in_combine_l in I. destruct (EACH w I) as (es' & SE' & L2 & (G & DU) & _). assert (es' = es) as -> by congruence. clear SE'. unfold off. apply Rmult_le_pos; [|lra].
    assert (N2 : 2 <= INR (length es)) by (apply (le_INR 2); exact L2). assert (0 <= mean_run * (INR (length es) - 1)); [|nra]. apply (Rmult_le_reg_r period); lra. }
  assert (CK : exists edges, Forall2 (fun w clk => EyeRunSpec.clock_of new_cdr None (e_config e) l w = Ok clk) (waves (e_waveforms e)) edges).
  { assert (Q : forall ws ss, Forall2 (sampled k period near (e_t_delta e)) ws ss -> (forall w, In w ws -> In w (waves (e_waveforms e))) -> exists edges, Forall2 (fun w clk => EyeRunSpec.clock_of new_cdr None (e_config e) l w = Ok clk) ws edges).
    - induction 1 as [|w s ws ss S F IH]; intros SUB; [exists []; constructor|]. destruct (IH (fun w' I => SUB w' (or_intror I))) as (edges & FE). destruct (EACH w (SUB w (or_introl eq_refl))) as (es & SE & L2 & ST & SR).
      pose proof (edge_at_boundary k period near (e_t_delta e) w s l _ es TD P NH S HALF HY SE) as BD. fold jitter in BD.
      destruct (track_runs jitter (fst s - period / 2) period t0 mean_run es sort n_comp compiled resampled P J25 JM SO NC T0 TR) as (clk & ties & RU); [|exact ST|exact M5|exact L2|exact SR|].
      { apply Forall_forall. intros x X. destruct (BD x X) as (n & B). exists n. unfold boundary, middle in B. replace (x - (fst s - period / 2 + IZR n * period)) with (x - (fst s + IZR n * period - period / 2)) by ring. exact B. }
      exists (clk :: edges). constructor; [|exact FE]. unfold EyeRunSpec.clock_of. rewrite SNR. fold (recovery new_cdr (e_config e)). unfold runner_cdr. rewrite SE. cbn [bind]. rewrite RE, RU. reflexivity.
    - exact (Q _ _ SA (fun w I => I)). }
  destruct CK as (edges & FE). assert (CK : mapM (EyeRunSpec.clock_of new_cdr None (e_config e) l) (waves (e_waveforms e)) = Ok edges) by (clear -FE; induction FE as [|w clk ws es E F IH]; [reflexivity|]; cbn [mapM]; rewrite E; cbn [bind]; rewrite IH; reflexivity).
  assert (ST : forall w es, In w (waves (e_waveforms e)) -> selected_edges l (c_polarity (e_config e)) w = Ok es -> steady period mean_run es).
  { intros w es I SE. destruct (EACH w I) as (es' & SE' & _ & ST & _). assert (es' = es) as -> by congruence. exact ST. }
  destruct (all_records l (e_config e) k period near (e_t_delta e) mean_run sort n_comp compiled t0 resampled TD P NH HALF HY SNR RE SO NC (proj1 T0) TR J25 JM _ _ _ FE SA ST) as (sent' & A1 & A2 & A3 & A4 & A5 & A6).
  fold jitter in A3. fold jitter off in A2, A4, A5.
  assert (PP : forall p, is_period edges p -> 0 < p). { intros p (clk & I & A). specialize (A3 clk p I A). apply Rabs_le_between in A3. lra. }
  assert (IP : exists p, is_period edges p).
  { destruct LONG as (w & es & I & SE & LG). destruct (A6 w es I SE) as (clk & IC & DU). destruct clk as [|a [|b clk]]; [cbn in DU; lra|cbn in DU; lra|]. exists (b - a), (a :: b :: clk). split; [exact IC|]. exists 0%nat, a, b. repeat split. }
  destruct (C57_period edges IP PP) as (t & SP & _). assert (TP : Rabs (t - period) <= 2 * jitter) by exact (near_period edges t period (2 * jitter) PP SP A3). pose proof TP as TP'. apply Rabs_le_between in TP'.
  assert (HS : forall P, sees P -> has_symbol t (e_t_delta e) (combine (waves (e_waveforms e)) edges) sent' P).
  { intros Q (w & s & es & f & n & I & SE & F0 & N & I1 & I2 & PN). destruct (A5 w s es n I SE N) as (clk & s' & i & b & IC & NB & PA & B). apply Rabs_le_between in B. exists (w, clk), s', f, i, b. split; [exact IC|]. split; [exact F0|]. split; [exact NB|].
    split; [|rewrite PA; exact PN]. cbn [fst snd]. assert (0 <= wd * (period + 2 * jitter)) by (apply Rmult_le_pos; lra). split; lra. }
  destruct (usable_calculated (set_clock edges [] e) l edges t k period near off sent' (2 * jitter)) as (m & e2 & CO & WD); try assumption.
  - reflexivity.
  - cbn. clear -FE. induction FE; cbn; lia.
  - intros w I. cbn in I. intros E. destruct (EACH w I) as (es & SE & _). unfold selected_edges in SE. rewrite E in SE. pose proof (waves_length _ _ I) as L. rewrite E in L. destruct (snd w); [|discriminate]. discriminate.
  - cbn. fold wd. split; [|exact LW1]. apply (Rmult_le_reg_r t); [lra|]. replace (101 / 100 * e_t_delta e / t * t) with (101 / 100 * e_t_delta e) by (field; lra). eapply Rle_trans; [exact LW|]. apply Rmult_le_compat_l; lra.
  - cbn. eapply Rle_trans; [exact CW|]. apply Rmult_le_compat_l; lra.
  - cbn. fold wd. eapply Rle_trans; [|exact NEAR]. assert (wd * t <= wd * (period + 2 * jitter)) by (apply Rmult_le_compat_l; lra). lra.
  - exact (HS _ S1).
  - exact (HS _ S0).
  - exact (HS _ SX).
  - destruct (given_clock false e l edges m e2 t FL) as (e1 & C1); [unfold clock; rewrite CE, CC; exact CK|exact CE|exact CO|].
    assert (WD' : width e t = wd) by exact WD. destruct (C72_signal false e m e1 edges t l k period near mean_run sent sort n_comp compiled t0 resampled C1 SK ltac:(rewrite WD'; exact LW1) FL HALF HY SNR CE CC RE SO NC (proj1 T0) TR NH ST J25 JM G2) as (_ & sent2 & R1 & R2 & R3).
    + rewrite WD'. fold jitter off. eapply Rle_trans; [|exact NEAR]. assert (wd * t <= wd * (period + 2 * jitter)) by (apply Rmult_le_compat_l; lra). lra.
    + exact SA.
    + exists m, e1, edges, t, sent2. split; [exact C1|]. split; [exact TP|]. split; [exact R1|]. split; [exact R2|exact R3].
Qed.
(** As C71, for an open eye with nothing configured about levels: [l] are the
    levels found, with a signal to noise ratio that is high enough. *)
Theorem C72_open e k period near mean_run sent sort n_comp compiled t0 resampled :
  averages fit -> (forall j l, (1 <= j <= 2)%nat -> l <> [] -> exists m, fit j l = Ok m) -> open_eye e k ->
  (match c_hysteresis (e_config e) with Some h => 0 <= h | None => 0 <= c_hysteresis_ua (e_config e) end) ->
  e_clock_edges e = None -> e_clocks e = None ->
  (forall es, recovery new_cdr (e_config e) es = CdrModel.run Int_part sort n_comp compiled false (Some t0) es resampled) -> CdrSpec.sorts sort -> (200000 <= n_comp)%Z -> 0 < t0 <= 900 ->
  99 / 100 * t0 <= period <= 101 / 100 * t0 -> near <= period / 2 -> mean_run <= 49 / 10 ->
  0 < e_t_delta e -> usable_mask draw k period (2 * (period / 2 - near + e_t_delta e)) e -> (1 <= e_resolution e)%Z -> c_point_cloud (e_config e) = true -> c_skip_measures (e_config e) = false ->
  - (1 / 2) <= c_edge_lower (e_config e) < 3 / 2 -> - (1 / 2) <= c_edge_upper (e_config e) < 3 / 2 ->
  let jitter := period / 2 - near + e_t_delta e in
  let off := (7 / 2 * mean_run + 5 / 2) * jitter in
  let width := c_level_width (e_config e) in
  101 / 100 * e_t_delta e <= width * (period - 2 * jitter) -> width < 1 -> e_t_delta e <= c_cross_width (e_config e) * (period - 2 * jitter) -> c_cross_width (e_config e) <= 1 ->
  25 * jitter <= period -> (7 * mean_run + 7) * jitter < period -> 3 * e_t_delta e + 2 * off < period -> off + e_t_delta e / 2 + 2 * jitter + width * (period + 2 * jitter) / 2 <= near ->
  Forall2 (sampled k period near (e_t_delta e)) (waves (e_waveforms e)) sent ->
  (forall l, find_levels (e_config e) (all_samples (e_waveforms e)) false = Ok l -> l_low_snr l = false
    /\ (forall w, In w (waves (e_waveforms e)) -> exists es, selected_edges l (c_polarity (e_config e)) w = Ok es /\ (2 <= length es)%nat /\ steady period mean_run es /\ searchable period n_comp es)
    /\ (exists w es, In w (waves (e_waveforms e)) /\ selected_edges l (c_polarity (e_config e)) w = Ok es /\ 5 / 2 * period < last es 0 - hd 0 es)
    /\ let sees := in_sight l (c_polarity (e_config e)) period (e_t_delta e) (waves (e_waveforms e)) sent in
       sees (fun p => cur p = true) /\ sees (fun p => cur p = false) /\ sees (fun p => prev p <> cur p)) ->
  exists m e1 edges t sent', completed false e m e1 edges t /\ Rabs (t - period) <= 2 * jitter
    /\ Forall2 (fun s s' => exists n, s' = renumbered n s period) sent sent' /\ Forall2 (clocks period off) edges sent'
    /\ reports_data e1 m k t (e_t_delta e) (combine (waves (e_waveforms e)) edges) sent'.
Proof.
  intros AV FT OE HY CE CC RE SO NC T0 TR NH M5 TD UM RS PC SK EL EU jitter off wd LW LW1 CW CW1 J25 JM G2 NEAR SA FOUND. pose proof OE as (lo & hi & A & TH & RG & L & RP & _).
  destruct (C71_found round6 fit aic (e_config e) (all_samples (e_waveforms e)) false lo hi A AV FT RG L RP) as (l & FL). destruct (open_half round6 fit aic AV e k false l OE FL) as (H & U).
  destruct (FOUND l FL) as (SNR & EACH & LONG & S1 & S0 & SX). specialize (U SNR).
  assert (ORD : l_falling l <= l_rising l). { destruct (C57_thresholds _ _ _ _ _ _ _ FL) as (_ & _ & _ & _ & _ & H1 & H2). destruct (c_hysteresis (e_config e)) as [h|]; [specialize (H1 h eq_refl); lra|]. specialize (H2 eq_refl). nra. }
  exact (C72_calculated e l k period near mean_run sent sort n_comp compiled t0 resampled FL H ORD SNR CE CC RE SO NC T0 TR NH M5 EACH LONG TD UM RS PC SK EL EU LW LW1 CW CW1 J25 JM G2 NEAR SA S1 S0 SX).
Qed.
End Track.
Print Assumptions C72_open.
Print Assumptions C72_signal.
Print Assumptions C72_calculated.
