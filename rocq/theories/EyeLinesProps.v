(** C75: joining the samples by lines affects only the picture. *)
From Coq Require Import ZArith Reals Bool List Lia Lra.
Import ListNotations.
From Verif Require Import Base Num RBool StatsModel MaskModel MaskProofs EyeModel EyeSpec EyeProofs EyeRProofs EyeProps Pam2Model Pam2Spec MathModel EyeImageModel EyeRunModel EyeRunSpec EyeRunProofs EyeRunPeriod EyeReportSpec EyeReportProps.
Local Open Scope R_scope.

(** The same configuration with the given [point_cloud]; by default it is false
    and samples are joined by lines in the heat map. *)
Definition with_cloud (b : bool) (c : config) : config :=
  Config (c_hysteresis c) (c_hysteresis_ua c) (c_levels_n_max c) (c_polarity c) (c_cdr c) (c_fallback_period c)
    (c_skip_measures c) (c_level_width c) (c_cross_width c) (c_time_height c) (c_edge_lower c) (c_edge_upper c)
    (c_noise_floor c) b (c_y_0 c) (c_y_1 c) (c_y_th c).
Definition cloud (b : bool) (e : eye) : eye := set_config (with_cloud b (e_config e)) e.
Lemma cloud_same e : cloud (c_point_cloud (e_config e)) e = e.
Proof. destruct e as [? ? ? ? ? [] ? ? ? ? ? ? ? ? ? ? ? ? ?]. reflexivity. Qed.
Lemma cloud_twice b b' e : cloud b (cloud b' e) = cloud b e.
Proof. reflexivity. Qed.
(** What is reported, but for the heat map and its colouring. *)
Definition same_report (a b : eye) : Prop :=
  get_measures a = get_measures b /\ get_clock_edges a = get_clock_edges b /\ (forall nrzm, bit_stream a nrzm = bit_stream b nrzm)
  /\ exists i j, get_images a = Ok (Some i) /\ get_images b = Ok (Some j)
     /\ im_grid i = im_grid j /\ im_mask i = im_mask j /\ im_hits i = im_hits j /\ im_margin i = im_margin j.

Section Lines.
Variable round6 : R -> R.
Variable fit : nat -> list R -> result (list (R * R * R)).
Variable aic : list (R * R * R) -> list R -> R.
Variable new_cdr : R -> cdr.
Variable percentile : list R -> R -> R.
Variable cast : R -> Z.
Variable draw : drawing.
Let completed := completed round6 fit aic new_cdr percentile cast.

(** The heat map is always drawn in the end. *)
Lemma heat_ends t td yz ua edges ws centers res pc n : 0 < t -> 0 < td -> (0 <= res)%Z -> sample_all t td edges ws = Ok centers -> (forall w, In w ws -> length (fst w) = length (snd w)) ->
  exists enough, forall fuel, (enough <= fuel)%nat -> exists h, step5_heatmap int_of_float cast fuel td t yz ua (combine (map snd ws) centers) res pc n = Ok h.
Proof.
  intros T D RP SA WL. destruct pc; [exists 0%nat; intros fuel _; apply cloud_total; assumption|].
  destruct (i_width_ok t td T D) as (w & W & W2). destruct (window_axis_ok w t td W2) as (t0 & T0).
  destruct (C50_lines cast td t yz ua res w t0 (combine (map snd ws) centers) n T D W T0 RP (all_inside t td edges _ _ _ SA WL W)) as (lines & _ & enough & H).
  exists enough. intros fuel F. destruct (H fuel F) as (img & E & _). exists img. exact E.
Qed.
Theorem C75_only_picture fuel d e m e1 edges t b : completed fuel draw d e m e1 edges t -> (0 <= e_resolution e)%Z ->
  exists enough, forall fuel', (enough <= fuel')%nat ->
  exists e2, completed fuel' draw d (cloud b e) m e2 edges t /\ same_report e1 e2.
Proof.
  intros (CA & GC & PP & SP & TD) RP. pose proof (period_pos edges t PP SP) as T.
  destruct (calculate_inv round6 fit aic new_cdr percentile cast fuel draw d e m e1 CA) as (l & edges' & t' & h & dirs & im & FL & CK & SP' & PL & RS & M1 & H1 & I1 & D1 & E1 & _ & C1 & _).
  unfold get_clock_edges in GC. rewrite C1, E1 in GC. assert (edges' = edges) as -> by congruence. assert (t' = t) as -> by congruence. clear SP' GC.
  unfold results in RS. destruct (Reqb (e_t_delta e) 0) eqn:TZ; [discriminate|]. apply bind_ok in RS. destruct RS as (centers & SA & RS). apply bind_ok in RS. destruct RS as ([[[m' dirs'] yz] ua] & ME & RS).
  apply bind_ok in RS. destruct RS as (h' & HM & RS). apply bind_ok in RS. destruct RS as (pr & MF & RS). apply bind_ok in RS. destruct RS as (im' & PI & RS). injection RS as -> -> -> -> PR.
  destruct (heat_ends t (e_t_delta e) yz ua edges _ centers (e_resolution e) b (n_sym m) T TD RP SA (waves_length (e_waveforms e))) as (enough & HE). exists enough. intros fuel' F. destruct (HE fuel' F) as (h2 & HM2).
  assert (PIC : exists im2, pictures cast draw (e_waveforms e) (e_resolution e) (e_t_delta e) (with_cloud b (e_config e)) t yz ua centers m h2 pr = Ok im2
    /\ im_grid im = im_grid im2 /\ im_mask im = im_mask im2 /\ im_hits im = im_hits im2 /\ im_margin im = im_margin im2).
  { unfold pictures in *  . destruct pr as [[mc offs] hs]. unfold draw_images in *  . change (c_edge_lower (with_cloud b (e_config e))) with (c_edge_lower (e_config e)). change (c_edge_upper (with_cloud b (e_config e))) with (c_edge_upper (e_config e)).
    unfold clean_image in *  . destruct (e_resolution e =? 0)%Z; [discriminate|]. cbn [bind] in *  . destruct (draw_grid _ _ _) as [g|]; [|discriminate]. cbn [bind] in *  .
    match goal with |- context [bind ?x _] => destruct x as [[[k1 k2] k3]|]; [|discriminate] end. cbn [bind] in *  . injection PI as <-. eexists. split; [reflexivity|]. repeat split. }
  destruct PIC as (im2 & PI2 & G1 & G2 & G3 & G4).
  destruct (calculate_eq round6 fit aic new_cdr percentile cast fuel' draw d (cloud b e) l edges t m h2 dirs im2 pr FL CK SP PL) as (e2 & CA2 & M2 & H2 & I2 & D2 & E2 & C2).
  - unfold results. change (e_t_delta (cloud b e)) with (e_t_delta e). rewrite TZ. change (e_waveforms (cloud b e)) with (e_waveforms e). rewrite SA. cbn [bind].
    change (e_mask (cloud b e)) with (e_mask e). change (measured percentile (e_waveforms e) (e_mask e) (e_t_delta e) (e_config (cloud b e)) l t centers) with (measured percentile (e_waveforms e) (e_mask e) (e_t_delta e) (e_config e) l t centers). rewrite ME. cbn [bind].
    change (c_point_cloud (e_config (cloud b e))) with b. change (e_resolution (cloud b e)) with (e_resolution e). rewrite HM2. cbn [bind]. change (e_masked (cloud b e)) with (e_masked e).
    change (mask_found (e_waveforms e) (e_mask e) (e_t_delta e) (e_config (cloud b e)) t yz ua centers (e_masked e)) with (mask_found (e_waveforms e) (e_mask e) (e_t_delta e) (e_config e) t yz ua centers (e_masked e)). rewrite MF. cbn [bind].
    change (e_config (cloud b e)) with (with_cloud b (e_config e)). rewrite PI2. reflexivity.
  - exists e2. split.
    + split; [exact CA2|]. split; [unfold get_clock_edges; rewrite C2, E2; reflexivity|]. split; [exact PP|]. split; [exact SP|exact TD].
    + split; [unfold get_measures; rewrite C1, C2, M1, M2; reflexivity|]. split; [unfold get_clock_edges; rewrite C1, C2, E1, E2; reflexivity|]. split; [intro nrzm; unfold bit_stream; rewrite C1, C2, D1, D2; reflexivity|].
      exists im, im2. split; [unfold get_images; rewrite C1, I1; reflexivity|]. split; [unfold get_images; rewrite C2, I2; reflexivity|]. repeat split; assumption.
Qed.
End Lines.
Print Assumptions C75_only_picture.
