(** C76: an eye diagram without measures. *)
From Coq Require Import ZArith Reals Bool List Lia Lra.
Import ListNotations.
From Verif Require Import Base Num RBool StatsModel MaskModel MaskProofs EyeModel EyeSpec EyeProofs EyeRProofs EyeProps Pam2Model Pam2Spec MathModel EyeImageModel EyeRunModel EyeRunSpec EyeRunProofs EyeRunPeriod EyeReportSpec EyeReportProps EyeLinesProps.
Local Open Scope R_scope.

(** The same configuration with [skip_measures] set. *)
Definition skipping (c : config) : config :=
  Config (c_hysteresis c) (c_hysteresis_ua c) (c_levels_n_max c) (c_polarity c) (c_cdr c) (c_fallback_period c)
    true (c_level_width c) (c_cross_width c) (c_time_height c) (c_edge_lower c) (c_edge_upper c)
    (c_noise_floor c) (c_point_cloud c) (c_y_0 c) (c_y_1 c) (c_y_th c).
Definition skip (e : eye) : eye := set_config (skipping (e_config e)) e.
(** Only the counts of symbols and samples are reported. *)
Definition counts_only (m m' : measures) : Prop :=
  n_sym m' = n_sym m /\ n_samples m' = n_samples m /\ (forall s, transition_dist m' s = 0%Z) /\ in_y m' = None /\ in_t m' = None
  /\ mask_margin m' = None /\ n_sym_bad m' = None /\ bathtub_curve m' = None.

Section Skip.
Variable round6 : R -> R.
Variable fit : nat -> list R -> result (list (R * R * R)).
Variable aic : list (R * R * R) -> list R -> R.
Variable new_cdr : R -> cdr.
Variable percentile : list R -> R -> R.
Variable cast : R -> Z.
Variable draw : drawing.
Let completed := completed round6 fit aic new_cdr percentile cast.
Let calculate := calculate round6 fit aic new_cdr percentile cast.

Lemma measured_counts w mk td c l t centers m dirs yz ua : measured percentile w mk td c l t centers = Ok (m, dirs, yz, ua) -> n_sym m = count_symbols centers /\ n_samples m = count_samples centers t td.
Proof.
  unfold measured. destruct (c_skip_measures c); [intros E; injection E as <- _ _ _; split; reflexivity|]. destruct (collect _ _) as [vs failed]. intros E. apply bind_ok in E. destruct E as (u & _ & E).
  apply bind_ok in E. destruct E as (m0 & _ & E). apply bind_ok in E. destruct E as (amp & _ & E). destruct (update_levels _ _ _ _ _ _ _) as [[a b] c0]. apply bind_ok in E. destruct E as (yc & _ & E). apply bind_ok in E. destruct E as (h & _ & E). apply bind_ok in E. destruct E as (mv & _ & E). apply bind_ok in E. destruct E as (cu & _ & E).
  destruct mv as [[[o hs] mg] bd]. injection E as <- _ _ _. split; reflexivity.
Qed.
(** What can be calculated with measures can be calculated without; a mask is
    then not drawn, and a bit stream is not known. *)
Theorem C76_skips fuel d e m e1 edges t : completed fuel draw d e m e1 edges t -> (0 <= e_resolution e)%Z -> e_converted e = None ->
  exists enough, forall fuel', (enough <= fuel')%nat ->
  exists m2 e2, completed fuel' draw d (skip e) m2 e2 edges t /\ counts_only m m2
    /\ (e_edge_dir e = None -> forall nrzm, bit_stream e2 nrzm = Err TypeError)
    /\ exists i j, get_images e1 = Ok (Some i) /\ get_images e2 = Ok (Some j) /\ im_grid j = im_grid i.
Proof.
  intros (CA & GC & PP & SP & TD) RP NC. pose proof (period_pos edges t PP SP) as T.
  destruct (calculate_inv round6 fit aic new_cdr percentile cast fuel draw d e m e1 CA) as (l & edges' & t' & h & dirs & im & FL & CK & SP' & PL & RS & M1 & H1 & I1 & D1 & E1 & _ & C1 & _).
  unfold get_clock_edges in GC. rewrite C1, E1 in GC. assert (edges' = edges) as -> by congruence. assert (t' = t) as -> by congruence. clear SP' GC.
  unfold results in RS. destruct (Reqb (e_t_delta e) 0) eqn:TZ; [discriminate|]. apply bind_ok in RS. destruct RS as (centers & SA & RS). apply bind_ok in RS. destruct RS as ([[[m' dirs'] yz] ua] & ME & RS).
  apply bind_ok in RS. destruct RS as (h' & HM & RS). apply bind_ok in RS. destruct RS as (pr & MF & RS). apply bind_ok in RS. destruct RS as (im' & PI & RS). injection RS as -> -> -> -> PR.
  destruct (measured_counts _ _ _ _ _ _ _ _ _ _ _ ME) as (N1 & N2).
  destruct (heat_ends cast t (e_t_delta e) (l_zero l) (l_ua l) edges _ centers (e_resolution e) (c_point_cloud (e_config e)) (count_symbols centers) T TD RP SA (waves_length (e_waveforms e))) as (enough & HE). exists enough. intros fuel' F. destruct (HE fuel' F) as (h2 & HM2).
  set (m2 := Measures (count_symbols centers) (count_samples centers t (e_t_delta e)) (fun _ => 0%Z) None None None None None).
  assert (PIC : exists im2, pictures cast draw (e_waveforms e) (e_resolution e) (e_t_delta e) (skipping (e_config e)) t (l_zero l) (l_ua l) centers m2 h2 (e_masked e) = Ok im2 /\ im_grid im2 = im_grid im).
  { unfold pictures in *  . unfold e_masked. rewrite NC. destruct pr as [[mc offs] hs]. unfold draw_images in *  . change (c_edge_lower (skipping (e_config e))) with (c_edge_lower (e_config e)). change (c_edge_upper (skipping (e_config e))) with (c_edge_upper (e_config e)).
    unfold clean_image in *  . destruct (e_resolution e =? 0)%Z; [discriminate|]. cbn [bind] in *  . destruct (draw_grid _ _ _) as [g|]; [|discriminate]. cbn [bind] in *  .
    apply bind_ok in PI. destruct PI as ([[k1 k2] k3] & _ & PI). injection PI as <-. eexists. split; reflexivity. }
  destruct PIC as (im2 & PI2 & G).
  destruct (calculate_eq round6 fit aic new_cdr percentile cast fuel' draw d (skip e) l edges t m2 h2 None im2 (e_masked e) FL CK SP PL) as (e2 & CA2 & M2 & H2 & I2 & D2 & E2 & C2).
  - unfold results. change (e_t_delta (skip e)) with (e_t_delta e). rewrite TZ. change (e_waveforms (skip e)) with (e_waveforms e). rewrite SA. cbn [bind].
    change (measured percentile (e_waveforms e) (e_mask (skip e)) (e_t_delta e) (e_config (skip e)) l t centers) with (@Ok (measures * option (list (list Z)) * R * R) (m2, None, l_zero l, l_ua l)). cbn [bind].
    change (c_point_cloud (e_config (skip e))) with (c_point_cloud (e_config e)). change (e_resolution (skip e)) with (e_resolution e). change (n_sym m2) with (count_symbols centers). rewrite HM2. cbn [bind].
    assert (MF2 : mask_found (e_waveforms e) (e_mask (skip e)) (e_t_delta e) (e_config (skip e)) t (l_zero l) (l_ua l) centers (e_masked (skip e)) = Ok (e_masked e)) by (unfold mask_found; destruct (e_mask (skip e)); reflexivity). rewrite MF2. cbn [bind].
    change (e_config (skip e)) with (skipping (e_config e)). rewrite PI2. reflexivity.
  - exists m2, e2. split.
    + split; [exact CA2|]. split; [unfold get_clock_edges; rewrite C2, E2; reflexivity|]. split; [exact PP|]. split; [exact SP|exact TD].
    + split; [repeat split; symmetry; assumption|]. split; [intros NE nrzm; unfold bit_stream; rewrite C2, D2; change (e_edge_dir (skip e)) with (e_edge_dir e); rewrite NE; reflexivity|]. exists im, im2. split; [unfold get_images; rewrite C1, I1; reflexivity|]. split; [unfold get_images; rewrite C2, I2; reflexivity|exact G].
Qed.
(** Without a mask, an object that was measured can be calculated again without
    measures; its bit stream stays. *)
Theorem C76_again fuel e m e1 edges t : completed fuel draw false e m e1 edges t -> (0 <= e_resolution e)%Z ->
  e_mask e = None -> e_converted e = None ->
  exists enough, forall fuel', (enough <= fuel')%nat -> exists m2 e2, completed fuel' draw false (skip e1) m2 e2 edges t /\ counts_only m m2 /\ (forall nrzm, bit_stream e2 nrzm = bit_stream e1 nrzm).
Proof.
  intros (CA & GC & PP & SP & TD) RP MK NC. pose proof (period_pos edges t PP SP) as T.
  destruct (calculate_inv round6 fit aic new_cdr percentile cast fuel draw false e m e1 CA) as (l & edges' & t' & h & dirs & im & FL & CK & SP' & PL & RS & M1 & H1 & I1 & D1 & E1 & (S1 & S2 & S3 & S4 & S5) & C1 & CF).
  unfold get_clock_edges in GC. rewrite C1, E1 in GC. assert (edges' = edges) as -> by congruence. assert (t' = t) as -> by congruence. clear SP' GC.
  unfold results in RS. destruct (Reqb (e_t_delta e) 0) eqn:TZ; [discriminate|]. apply bind_ok in RS. destruct RS as (centers & SA & RS). apply bind_ok in RS. destruct RS as ([[[m' dirs'] yz] ua] & ME & RS).
  apply bind_ok in RS. destruct RS as (h' & HM & RS). apply bind_ok in RS. destruct RS as (pr & MF & RS). apply bind_ok in RS. destruct RS as (im' & PI & RS). injection RS as -> -> -> -> PR.
  assert (PE : pr = e_masked e) by (rewrite MK in MF; unfold mask_found in MF; congruence). rewrite PE in PI, PR. destruct (measured_counts _ _ _ _ _ _ _ _ _ _ _ ME) as (N1 & N2).
  destruct (heat_ends cast t (e_t_delta e) (l_zero l) (l_ua l) edges _ centers (e_resolution e) (c_point_cloud (e_config e1)) (count_symbols centers) T TD RP SA (waves_length (e_waveforms e))) as (enough & HE). exists enough. intros fuel' F. destruct (HE fuel' F) as (h2 & HM2).
  set (m2 := Measures (count_symbols centers) (count_samples centers t (e_t_delta e)) (fun _ => 0%Z) None None None None None).
  assert (FL2 : find_levels round6 fit aic (e_config (skip e1)) (all_samples (e_waveforms (skip e1))) false = Ok l).
  { change (find_levels round6 fit aic (e_config (skip e1)) (all_samples (e_waveforms (skip e1))) false) with (find_levels round6 fit aic (e_config e1) (all_samples (e_waveforms e1)) false). rewrite (levels_cfg round6 fit aic _ _ _ _ CF), S1. exact FL. }
  assert (CK2 : clock new_cdr (skip e1) l = Ok edges) by (unfold clock; change (e_clock_edges (skip e1)) with (e_clock_edges e1); rewrite E1; reflexivity).
  assert (EG : c_edge_lower (e_config e1) = c_edge_lower (e_config e) /\ c_edge_upper (e_config e1) = c_edge_upper (e_config e)) by (destruct CF as [-> |(x & ->)]; split; reflexivity). destruct EG as (EG1 & EG2).
  assert (PIC : exists im2, pictures cast draw (e_waveforms e) (e_resolution e) (e_t_delta e) (e_config (skip e1)) t (l_zero l) (l_ua l) centers m2 h2 (e_masked e) = Ok im2).
  { unfold pictures, e_masked in *  . rewrite NC in *  . unfold draw_images in *  . change (c_edge_lower (e_config (skip e1))) with (c_edge_lower (e_config e1)). change (c_edge_upper (e_config (skip e1))) with (c_edge_upper (e_config e1)). rewrite EG1, EG2.
    unfold clean_image in *  . destruct (e_resolution e =? 0)%Z; [discriminate|]. cbn [bind] in *  . destruct (draw_grid _ _ _) as [g|]; [|discriminate]. cbn [bind]. eexists. reflexivity. }
  destruct PIC as (im2 & PI2).
  assert (RS : results percentile cast fuel' draw (e_waveforms (skip e1)) (e_mask (skip e1)) (e_resolution (skip e1)) (e_t_delta (skip e1)) (e_config (skip e1)) l edges t (e_masked (skip e1)) = Ok (m2, h2, None, im2, e_masked e)).
  { unfold results. change (e_t_delta (skip e1)) with (e_t_delta e1). change (e_waveforms (skip e1)) with (e_waveforms e1). change (e_resolution (skip e1)) with (e_resolution e1). change (e_mask (skip e1)) with (e_mask e1). change (e_masked (skip e1)) with (e_masked e1). rewrite S1, S3, S4, S5, TZ, SA. cbn [bind].
    change (measured percentile (e_waveforms e) (e_mask e) (e_t_delta e) (e_config (skip e1)) l t centers) with (@Ok (measures * option (list (list Z)) * R * R) (m2, None, l_zero l, l_ua l)). cbn [bind].
    change (c_point_cloud (e_config (skip e1))) with (c_point_cloud (e_config e1)). change (n_sym m2) with (count_symbols centers). rewrite HM2. cbn [bind].
    assert (MF2 : mask_found (e_waveforms e) (e_mask e) (e_t_delta e) (e_config (skip e1)) t (l_zero l) (l_ua l) centers (e_masked e1) = Ok (e_masked e1)) by (unfold mask_found; destruct (e_mask e); reflexivity). rewrite MF2. cbn [bind]. rewrite <- PR.
    rewrite PI2. reflexivity. }
  destruct (calculate_eq round6 fit aic new_cdr percentile cast fuel' draw false (skip e1) l edges t m2 h2 None im2 (e_masked e) FL2 CK2 SP ltac:(discriminate) RS) as (e2 & CA2 & M2 & H2 & I2 & D2 & E2 & C2).
  exists m2, e2. split; [|split; [repeat split; symmetry; assumption|]].
  - split; [exact CA2|]. split; [unfold get_clock_edges; rewrite C2, E2; reflexivity|]. split; [exact PP|]. split; [exact SP|]. change (e_t_delta (skip e1)) with (e_t_delta e1). rewrite S5. exact TD.
  - intros nrzm. unfold bit_stream. rewrite C1, C2, D2. reflexivity.
Qed.
(** Finding: with a mask, once measured, the same object can not be calculated
    again without measures: it remembers the mask but has no margin to draw. *)
Theorem C76_again_refuted fuel e m e1 edges t mk : completed fuel draw false e m e1 edges t -> (0 <= e_resolution e)%Z ->
  e_mask e = Some mk -> c_skip_measures (e_config e) = false ->
  exists enough, forall fuel', (enough <= fuel')%nat -> fst (calculate fuel' draw false (skip e1)) = Err TypeError.
Proof.
  intros (CA & GC & PP & SP & TD) RP MK SK. pose proof (period_pos edges t PP SP) as T.
  destruct (calculate_inv round6 fit aic new_cdr percentile cast fuel draw false e m e1 CA) as (l & edges' & t' & h & dirs & im & FL & CK & SP' & PL & RS & M1 & H1 & I1 & D1 & E1 & (S1 & S2 & S3 & S4 & S5) & C1 & CF).
  unfold get_clock_edges in GC. rewrite C1, E1 in GC. assert (edges' = edges) as -> by congruence. assert (t' = t) as -> by congruence. clear SP' GC.
  unfold results in RS. destruct (Reqb (e_t_delta e) 0) eqn:TZ; [discriminate|]. apply bind_ok in RS. destruct RS as (centers & SA & RS). apply bind_ok in RS. destruct RS as ([[[m' dirs'] yz] ua] & ME & RS).
  apply bind_ok in RS. destruct RS as (h' & HM & RS). apply bind_ok in RS. destruct RS as (pr & MF & RS). apply bind_ok in RS. destruct RS as (im' & PI & RS). injection RS as -> -> -> -> PR.
  rewrite MK in MF. unfold mask_found in MF. rewrite SK in MF. apply bind_ok in MF. destruct MF as (mc & MC & MF). apply bind_ok in MF. destruct MF as ([[[offs hs] mg] bd] & _ & MF). injection MF as <-.
  destruct (heat_ends cast t (e_t_delta e) (l_zero l) (l_ua l) edges _ centers (e_resolution e) (c_point_cloud (e_config e1)) (count_symbols centers) T TD RP SA (waves_length (e_waveforms e))) as (enough & HE). exists enough. intros fuel' F. destruct (HE fuel' F) as (h2 & HM2).
  set (m2 := Measures (count_symbols centers) (count_samples centers t (e_t_delta e)) (fun _ => 0%Z) None None None None None).
  assert (FL2 : find_levels round6 fit aic (e_config (skip e1)) (all_samples (e_waveforms (skip e1))) false = Ok l).
  { change (find_levels round6 fit aic (e_config (skip e1)) (all_samples (e_waveforms (skip e1))) false) with (find_levels round6 fit aic (e_config e1) (all_samples (e_waveforms e1)) false). rewrite (levels_cfg round6 fit aic _ _ _ _ CF), S1. exact FL. }
  assert (CK2 : clock new_cdr (skip e1) l = Ok edges) by (unfold clock; change (e_clock_edges (skip e1)) with (e_clock_edges e1); rewrite E1; reflexivity).
  assert (EG : c_edge_lower (e_config e1) = c_edge_lower (e_config e) /\ c_edge_upper (e_config e1) = c_edge_upper (e_config e)) by (destruct CF as [-> |(x & ->)]; split; reflexivity). destruct EG as (EG1 & EG2).
  pose proof (steps_eq round6 fit aic new_cdr percentile cast fuel' draw false (skip e1) l edges t FL2 CK2 SP ltac:(discriminate)) as Q.
  assert (RS : results percentile cast fuel' draw (e_waveforms (skip e1)) (e_mask (skip e1)) (e_resolution (skip e1)) (e_t_delta (skip e1)) (e_config (skip e1)) l edges t (e_masked (skip e1)) = Err TypeError).
  { unfold results. change (e_t_delta (skip e1)) with (e_t_delta e1). change (e_waveforms (skip e1)) with (e_waveforms e1). change (e_resolution (skip e1)) with (e_resolution e1). change (e_mask (skip e1)) with (e_mask e1). change (e_masked (skip e1)) with (e_masked e1). rewrite S1, S3, S4, S5, TZ, SA. cbn [bind].
    change (measured percentile (e_waveforms e) (e_mask e) (e_t_delta e) (e_config (skip e1)) l t centers) with (@Ok (measures * option (list (list Z)) * R * R) (m2, None, l_zero l, l_ua l)). cbn [bind].
    change (c_point_cloud (e_config (skip e1))) with (c_point_cloud (e_config e1)). change (n_sym m2) with (count_symbols centers). rewrite HM2. cbn [bind].
    assert (MF2 : mask_found (e_waveforms e) (e_mask e) (e_t_delta e) (e_config (skip e1)) t (l_zero l) (l_ua l) centers (e_masked e1) = Ok (e_masked e1)) by (unfold mask_found; destruct (e_mask e); reflexivity). rewrite MF2. cbn [bind]. rewrite <- PR.
    unfold pictures in *  . unfold draw_images in *  . change (c_edge_lower (e_config (skip e1))) with (c_edge_lower (e_config e1)). change (c_edge_upper (e_config (skip e1))) with (c_edge_upper (e_config e1)). rewrite EG1, EG2.
    unfold clean_image in *  . destruct (e_resolution e =? 0)%Z; [discriminate|]. cbn [bind] in *  . destruct (draw_grid _ _ _) as [g|]; [|discriminate]. cbn [bind] in *  .
    apply bind_ok in PI. destruct PI as (k & PI & _). apply bind_ok in PI. destruct PI as (paths & MP & PI). rewrite MP. cbn [bind]. apply bind_ok in PI. destruct PI as (im_m & DP & _). rewrite DP. reflexivity. }
  rewrite RS in Q. destruct Q as (e' & Q). unfold calculate. rewrite calculate_steps, Q. reflexivity.
Qed.
End Skip.
Print Assumptions C76_skips.
Print Assumptions C76_again.
Print Assumptions C76_again_refuted.

(** ** Concrete cases *)
From Verif Require Import EyeDataProps EyeImageSpec EyeImageProps.
Example C76_met round6 fit aic new_cdr percentile cast draw : exists e enough,
  construct bits_wave None (Some (ListOf [(true, bits_clock)])) None 10 (Some (Some (skipping bits_config'))) = Ok e
  /\ forall fuel, (enough <= fuel)%nat -> exists m e1, completed round6 fit aic new_cdr percentile cast fuel draw false e m e1 [bits_clock] 4
       /\ in_y m = None /\ bit_stream e1 false = Err TypeError.
Proof.
  destruct (C67_met round6 fit aic new_cdr percentile cast 0 draw) as (e0 & m & e1 & C & _ & CO & _).
  destruct (C76_skips round6 fit aic new_cdr percentile cast draw 0 false e0 m e1 [bits_clock] 4 CO) as (enough & H); [injection C as <-; cbn; lia|injection C as <-; reflexivity|].
  exists (skip e0), enough. split; [injection C as <-; reflexivity|]. intros fuel F. destruct (H fuel F) as (m2 & e2 & C2 & (_ & _ & _ & IY & _) & BS & _). exists m2, e2. split; [exact C2|]. split; [exact IY|]. apply BS. injection C as <-. reflexivity.
Qed.
Example C76_again_met round6 fit aic new_cdr percentile cast draw : fair (line_aa draw) -> exists e0 m e1 enough,
  construct bits_wave None (Some (ListOf [(true, bits_clock)])) (Some bits_mask) 10 (Some (Some bits_config)) = Ok e0
  /\ completed round6 fit aic new_cdr percentile cast 0 draw false e0 m e1 [bits_clock] 4
  /\ forall fuel, (enough <= fuel)%nat -> fst (calculate round6 fit aic new_cdr percentile cast fuel draw false (skip e1)) = Err TypeError.
Proof.
  intros FA. destruct (C62_witness round6 fit aic new_cdr percentile cast 0 draw FA) as (e0 & m & e1 & C & CO & MK & SK & _).
  destruct (C76_again_refuted round6 fit aic new_cdr percentile cast draw 0 e0 m e1 [bits_clock] 4 bits_mask CO) as (enough & H); [injection C as <-; cbn; lia|exact MK|exact SK|].
  exists e0, m, e1, enough. split; [exact C|]. split; [exact CO|exact H].
Qed.
