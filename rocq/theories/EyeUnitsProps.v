(** C68: the units of the values do not matter. *)
From Coq Require Import ZArith Reals Bool List Lia Lra FunctionalExtensionality.
Import ListNotations.
From Verif Require CdrModel.
From Verif Require Import Base Num RBool LinesModel StatsModel MaskModel EyeModel EyeSpec Pam2Model EyeImageModel EyeRunModel EyeRunSpec EyeRunProofs EyeLevelsProps EyeUnitsSpec EyeUnitsProofs EyeReportProps EyeDataProps.
Local Open Scope R_scope.
Local Open Scope result_scope.

Section Units.
Variables a b : R.
Hypothesis A : 0 < a.
Variable round6 : R -> R.
Variable fit : nat -> list R -> result (list (R * R * R)).
Variable aic : list (R * R * R) -> list R -> R.
Variable new_cdr : R -> cdr.
Variable percentile : list R -> R -> R.
Variable cast : R -> Z.
Variable fuel : nat.
Variable draw : drawing.
Hypothesis PU : percentile_in_units a b percentile.
Let M := eye_in_units a b.
Notation f v := (a * v + b) (only parsing).

Definition shaped (e : eye) : Prop := three (e_waveforms e) /\ (forall c, e_clocks e = Some c -> three c).
Definition agree {X} (g : X -> X) (m : act X) : Prop := forall e, shaped e -> m (M e) = (mapped g (fst (m e)), M (snd (m e))).
Definition kept (e e' : eye) : Prop := shaped e -> shaped e'.
Lemma kept_refl e : kept e e. Proof. intros S. exact S. Qed.
Lemma kept_trans x y z : kept x y -> kept y z -> kept x z. Proof. intros H K S. exact (K (H S)). Qed.
Lemma agree_bind {X Y} (h : X -> X) (g : Y -> Y) (m : act X) (k : X -> act Y) : keeps kept m -> agree h m -> (forall x, agree g (k x)) -> (forall x, k (h x) = k x) -> agree g (abind m k).
Proof.
  intros KP AM AK HK e S. unfold abind. rewrite (AM e S). pose proof (KP e S) as S'. destruct (m e) as [[x|x] e']; cbn [fst snd mapped] in * ; [|reflexivity]. rewrite HK. apply AK. exact S'.
Qed.
Notation id_u := (fun u : unit => u).
Lemma agree_step1 d : agree id_u (step1_levels round6 fit aic d).
Proof.
  intros e (T & _). unfold step1_levels, abind, read, alift, update. change (e_config (M e)) with (in_units a b (e_config e)). change (e_waveforms (M e)) with (rescaled a b (e_waveforms e)). rewrite snd_rescaled by exact T. rewrite <- concat_map.
  rewrite (C57_units round6 fit aic (e_config e) _ d a b A). destruct (find_levels round6 fit aic (e_config e) _ d) as [l|x]; reflexivity.
Qed.
Lemma agree_pam2_clock : agree id_u (pam2_clock new_cdr).
Proof.
  intros e (T & TC). unfold pam2_clock, abind, read. change (e_clock_edges (M e)) with (e_clock_edges e). destruct (e_clock_edges e); [reflexivity|]. change (e_levels (M e)) with (option_map (levels_in_units a b) (e_levels e)). destruct (e_levels e) as [l|] eqn:L; [|reflexivity]. cbn [option_map].
  change (e_clocks (M e)) with (option_map (rescaled a b) (e_clocks e)). change (c_polarity (e_config (M e))) with (c_polarity (e_config e)). destruct (e_clocks e) as [ck|] eqn:K; cbn [option_map].
  - rewrite collect_units by (first [exact A | apply TC; reflexivity]). destruct (collect _ _) as [edges failed]. unfold update, alift. destruct failed; reflexivity.
  - change (l_low_snr (levels_in_units a b l)) with (l_low_snr l). destruct (l_low_snr l); [reflexivity|]. change (c_cdr (e_config (M e))) with (c_cdr (e_config e)). change (c_fallback_period (e_config (M e))) with (c_fallback_period (e_config e)). change (e_waveforms (M e)) with (rescaled a b (e_waveforms e)).
    rewrite collect_cdr_units by (first [exact A | exact T]). destruct (collect _ _) as [r failed]. unfold update, alift. destruct failed; reflexivity.
Qed.
Lemma agree_base_clock d : agree id_u (base_clock d).
Proof.
  intros e (T & TC). unfold base_clock, abind, read. change (e_clock_edges (M e)) with (e_clock_edges e). destruct (e_clock_edges e) as [ed|] eqn:CE.
  - unfold aret, alift, update, araise. change (e_clock_edges (M e)) with (e_clock_edges e). rewrite CE. destruct (symbol_period ed); [|reflexivity]. change (e_ties (M e)) with (e_ties e). destruct d; [|reflexivity]. destruct (e_ties e); reflexivity.
  - change (c_fallback_period (e_config (M e))) with (c_fallback_period (e_config e)). change (e_waveforms (M e)) with (rescaled a b (e_waveforms e)). rewrite collect_fallback_units by exact T. destruct (collect _ _) as [edges failed]. unfold update, alift, aret, araise. destruct failed; [reflexivity|]. cbn [outcome e_clock_edges set_clock e_ties]. destruct (symbol_period edges); [|reflexivity]. destruct d; reflexivity.
Qed.
Lemma kept_updates : (forall c e, kept e (set_config c e)) /\ (forall x y e, kept e (set_clock x y e)).
Proof. split; intros; intros S; exact S. Qed.
Lemma agree_step2 d : agree id_u (step2_clock new_cdr d).
Proof.
  unfold step2_clock. apply (agree_bind id_u id_u); [|apply agree_pam2_clock|intros _; apply agree_base_clock|reflexivity].
  apply (keeps_pam2_clock new_cdr kept kept_refl kept_trans); intros; intros S; exact S.
Qed.
Lemma agree_step3 : agree id_u step3_sample_.
Proof.
  intros e (T & TC). unfold step3_sample_, abind, read. change (e_t_sym (M e)) with (e_t_sym e). change (e_clock_edges (M e)) with (e_clock_edges e). destruct (e_t_sym e) as [t|]; [|reflexivity]. destruct (e_clock_edges e) as [ed|]; [|reflexivity]. change (e_t_delta (M e)) with (e_t_delta e). destruct (Reqb _ _); [reflexivity|]. change (e_waveforms (M e)) with (rescaled a b (e_waveforms e)). rewrite sample_all_units by exact T. unfold alift, update. destruct (sample_all _ _ _ _); reflexivity.
Qed.
Lemma levels_updated c m0 amp l : update_levels (c_y_0 (in_units a b c)) (c_y_1 (in_units a b c)) (c_y_th (in_units a b c)) (f m0) (a * amp) (f (l_zero l)) (f (l_half l))
  = (let '(z, ua, h) := update_levels (c_y_0 c) (c_y_1 c) (c_y_th c) m0 amp (l_zero l) (l_half l) in (f z, a * ua, f h)).
Proof.
  unfold update_levels. cbn [in_units c_y_0 c_y_1 c_y_th]. destruct (c_y_0 c), (c_y_1 c), (c_y_th c); cbn [option_map]; f_equal; try (f_equal; field); field.
Qed.
Lemma some_level b1 u : some_value (option_map (moved a b1) u) = (x <- some_value u ;; Ok (a * x + b1)).
Proof. destruct u; reflexivity. Qed.
Lemma agree_step4 : agree id_u (step4_measure percentile).
Proof.
  intros e (T & TC). unfold step4_measure, abind, update, alift, read, aret. change (e_t_sym (M e)) with (e_t_sym e). change (e_centers (M e)) with (e_centers e). change (e_levels (M e)) with (option_map (levels_in_units a b) (e_levels e)).
  destruct (e_t_sym e) as [t|] eqn:TS; [|reflexivity]. destruct (e_levels e) as [l|] eqn:L; [|reflexivity]. cbn [option_map]. destruct (e_centers e) as [centers|] eqn:C; [|reflexivity].
  set (c := e_config e). change (e_config (M e)) with (in_units a b c). change (e_waveforms (M e)) with (rescaled a b (e_waveforms e)). change (e_t_delta (M e)) with (e_t_delta e). change (e_mask (M e)) with (option_map (rescaled_mask a) (e_mask e)).
  change (c_skip_measures (in_units a b c)) with (c_skip_measures c). destruct (c_skip_measures c); [reflexivity|].
  change (c_level_width (in_units a b c)) with (c_level_width c). change (c_cross_width (in_units a b c)) with (c_cross_width c). change (c_time_height (in_units a b c)) with (c_time_height c). change (c_edge_lower (in_units a b c)) with (c_edge_lower c). change (c_edge_upper (in_units a b c)) with (c_edge_upper c). change (c_noise_floor (in_units a b c)) with (f (c_noise_floor c)).
  rewrite combine_units by exact T. set (ws := combine (map snd (waves (e_waveforms e))) centers). change (l_half (levels_in_units a b l)) with (f (l_half l)). rewrite (collect_vertical_units a b A). destruct (collect _ ws) as [vs failed]. cbn [fst snd].
  assert (ED : map (fun v => v_edge_dir v) (map (vmove a b) vs) = map (fun v => v_edge_dir v) vs) by (rewrite map_map; reflexivity). rewrite ED.
  destruct failed as [x|]; [reflexivity|]. cbn [outcome].
  assert (MG : fold_left merge (map (vmove a b) vs) no_vertical = vmove a b (fold_left merge vs no_vertical)) by exact (merge_units a b vs no_vertical). rewrite MG. set (v := fold_left merge vs no_vertical). rewrite (measure_y_units a b A percentile PU). set (my := measure_y percentile (c_noise_floor c) v).
  change (m_y_0 (y_in_units a b my)) with (option_map (moved a b) (m_y_0 my)). change (m_amp (y_in_units a b my)) with (option_map (moved a 0) (m_amp my)). change (m_y_cross (y_in_units a b my)) with (option_map (moved a b) (m_y_cross my)). rewrite !some_level.
  destruct (some_value (m_y_0 my)) as [m0|x]; [|reflexivity]. cbn [bind]. destruct (some_value (m_amp my)) as [amp|x]; [|reflexivity]. cbn [bind].
  change (l_zero (levels_in_units a b l)) with (f (l_zero l)). rewrite Rplus_0_r. pose proof (levels_updated c m0 amp l) as LU.
 rewrite LU. destruct (update_levels (c_y_0 c) (c_y_1 c) (c_y_th c) m0 amp (l_zero l) (l_half l)) as [[z ua] h].
  destruct (some_value (m_y_cross my)) as [yc|x]; [|reflexivity]. cbn [bind].
  assert (WS : combine (map (fw a b) ws) (map (fun v => v_edge_dir v) vs) = map (fun p => (fw a b (fst p), snd p)) (combine ws (map (fun v => v_edge_dir v) vs))) by apply combine_map_l. rewrite WS.
 rewrite (horizontal_units a b A). destruct (measure_horizontal _ _ _ _ _ _ _ _ _ _) as [hz|x]; [|reflexivity]. destruct (e_mask e) as [mk|] eqn:MK.
  - cbn [option_map]. rewrite (mask_convert_units a A). destruct (mask_convert mk ua t) as [mc|x]; [|reflexivity]. change (Some (rescaled_mask a mk)) with (option_map (rescaled_mask a) (Some mk)). rewrite (mask_units a b A). destruct (eye_sample_mask _ _ _ _ _ _ _) as [[[[offs hs] margin] bad]|x]; [|reflexivity].
 rewrite (bathtub_units a b A). destruct (bathtub_curves _ _ _ _ _ _ _) as [curves|x]; reflexivity.
  - cbn [option_map eye_sample_mask]. rewrite (bathtub_units a b A). destruct (bathtub_curves _ _ _ _ _ _ _) as [curves|x]; reflexivity.
Qed.
Lemma agree_step5 : agree id_u (step5_stack cast fuel draw).
Proof.
  intros e (T & TC). unfold step5_stack, abind, update, alift, read. change (e_t_sym (M e)) with (e_t_sym e). change (e_centers (M e)) with (e_centers e). change (e_levels (M e)) with (option_map (levels_in_units a b) (e_levels e)). change (e_measures (M e)) with (option_map (measures_in_units a b) (e_measures e)).
  destruct (e_t_sym e) as [t|]; [|reflexivity]. destruct (e_levels e) as [l|]; [|reflexivity]. destruct (e_centers e) as [centers|]; [|reflexivity]. destruct (e_measures e) as [m|]; [|reflexivity]. cbn [option_map].
  change (e_waveforms (M e)) with (rescaled a b (e_waveforms e)). rewrite combine_units by exact T. set (ws := combine (map snd (waves (e_waveforms e))) centers). change (l_zero (levels_in_units a b l)) with (a * l_zero l + b). change (l_ua (levels_in_units a b l)) with (a * l_ua l). rewrite (heatmap_units a b A).
  change (e_t_delta (M e)) with (e_t_delta e). change (e_resolution (M e)) with (e_resolution e). change (c_point_cloud (e_config (M e))) with (c_point_cloud (e_config e)). change (n_sym (measures_in_units a b m)) with (n_sym m). destruct (step5_heatmap _ _ _ _ _ _ _ _ _ _ _) as [h|x]; [|reflexivity].
  rewrite (images_units a b A). change (c_edge_lower (e_config (M e))) with (c_edge_lower (e_config e)). change (c_edge_upper (e_config (M e))) with (c_edge_upper (e_config e)). change (e_converted (M e)) with (e_converted e). change (mask_margin (measures_in_units a b m)) with (mask_margin m). change (e_hits (M e)) with (e_hits e). change (e_offenders (M e)) with (e_offenders e).
  destruct (draw_images _ _ _ _ _ _ _ _ _ _ _ _ _ _ _) as [im|x]; reflexivity.
Qed.
Lemma agree_steps d : agree id_u (steps round6 fit aic new_cdr percentile cast fuel draw d).
Proof.
  assert (S : forall c e, kept e (set_config c e)) by (intros c e Q; exact Q).
  unfold steps. apply (agree_bind id_u id_u); [apply keeps_step1; try exact kept_refl; try exact kept_trans; intros; intros Q; exact Q|apply agree_step1|intros _|reflexivity].
  apply (agree_bind id_u id_u); [apply keeps_step2; try exact kept_refl; try exact kept_trans; intros; intros Q; exact Q|apply agree_step2|intros _|reflexivity].
  apply (agree_bind id_u id_u); [apply keeps_step3; try exact kept_refl; try exact kept_trans; intros; intros Q; exact Q|apply agree_step3|intros _|reflexivity].
  apply (agree_bind id_u id_u); [apply keeps_step4; try exact kept_refl; try exact kept_trans; intros; intros Q; exact Q|apply agree_step4|intros _; apply agree_step5|reflexivity].
Qed.
Lemma kept_steps d : keeps kept (steps round6 fit aic new_cdr percentile cast fuel draw d).
Proof. apply keeps_steps; try exact kept_refl; try exact kept_trans; intros; intros Q; exact Q. Qed.
Let calculate := calculate round6 fit aic new_cdr percentile cast fuel draw.
Let performs := performs round6 fit aic new_cdr percentile cast fuel draw.
Lemma agree_calculate d : agree (measures_in_units a b) (calculate d).
Proof.
  intros e S. unfold calculate. rewrite !calculate_steps. rewrite (agree_steps d e S). destruct (steps _ _ _ _ _ _ _ _ d e) as [[u|x] e1]; cbn [fst snd mapped]; [|reflexivity]. change (e_measures (M e1)) with (option_map (measures_in_units a b) (e_measures e1)). destruct (e_measures e1); reflexivity.
Qed.
Lemma kept_calculate d : keeps kept (calculate d).
Proof. intros e S. unfold calculate. rewrite calculate_steps. pose proof (kept_steps d e S) as K. destruct (steps _ _ _ _ _ _ _ _ d e) as [[u|x] e1]; cbn [snd] in * ; [|exact K]. destruct (e_measures e1); exact K. Qed.
Lemma agree_performs cs cs' : Forall2 (same_call a b) cs cs' -> forall e, shaped e ->
  performs cs' (M e) = (map (mapped (option_map (measures_in_units a b))) (fst (performs cs e)), M (snd (performs cs e))).
Proof.
  intros F. induction F as [|c c' cs cs' [d|g g' G] F IH]; intros e S; [reflexivity| |].
  - unfold performs in *  . cbn [EyeRunModel.performs perform]. fold calculate. rewrite (agree_calculate d e S). pose proof (kept_calculate d e S) as S'. destruct (calculate d e) as [r e1]. cbn [fst snd] in *  . rewrite (IH e1 S'). destruct (EyeRunModel.performs _ _ _ _ _ _ _ _ cs e1) as [rs e2]. cbn [fst snd map]. destruct r; reflexivity.
  - unfold performs in *  . cbn [EyeRunModel.performs perform]. replace (set_config (g' (e_config (M e))) (M e)) with (M (set_config (g (e_config e)) e)) by (unfold M, eye_in_units, set_config; cbn -[in_units rescaled rescaled_mask levels_in_units measures_in_units]; rewrite G; reflexivity).
    rewrite (IH (set_config (g (e_config e)) e) S). destruct (EyeRunModel.performs _ _ _ _ _ _ _ _ cs _) as [rs e2]. reflexivity.
Qed.
End Units.

Lemma as_3d_rescaled a b w : as_3d (rescaled a b w) = mapped (rescaled a b) (as_3d w).
Proof.
  unfold as_3d. change (shape (rescaled a b w)) with (shape w). destruct (length (shape w)) as [|[|[|[|n]]]] eqn:L; try reflexivity. cbn [mapped]. f_equal. unfold rescaled. cbn [shape at_ length]. rewrite L. f_equal. apply functional_extensionality. intros [|x i]; reflexivity.
Qed.
Lemma as_3d_three w w' : as_3d w = Ok w' -> three w'.
Proof. unfold as_3d, three. destruct (length (shape w)) as [|[|[|[|n]]]] eqn:L; try discriminate; intros E; injection E as <-; [cbn; rewrite L; reflexivity|exact L]. Qed.
Lemma construct_in_units a b w ck ce mk res cfg : construct (rescaled a b w) (option_map (rescaled a b) ck) ce (option_map (rescaled_mask a) mk) res (rescaled_config a b cfg)
  = mapped (eye_in_units a b) (construct w ck ce mk res cfg).
Proof.
  unfold construct. rewrite as_3d_rescaled. destruct (as_3d w) as [w3|x] eqn:W; [|reflexivity]. cbn [mapped bind]. change (dim (rescaled a b w3)) with (dim w3). change (shape (rescaled a b w3)) with (shape w3). destruct (negb _ || _); [reflexivity|].
  assert (CK : (match option_map (rescaled a b) ck with None => Ok None | Some c => c <- as_3d c ;; if list_eq_dec Nat.eq_dec (shape c) (shape w3) then Ok (Some c) else Err ValueError end)
    = mapped (option_map (rescaled a b)) (match ck with None => Ok None | Some c => c <- as_3d c ;; if list_eq_dec Nat.eq_dec (shape c) (shape w3) then Ok (Some c) else Err ValueError end)).
  { destruct ck as [c|]; [|reflexivity]. cbn [option_map]. rewrite as_3d_rescaled. destruct (as_3d c) as [c3|x]; [|reflexivity]. cbn [mapped bind]. change (shape (rescaled a b c3)) with (shape c3). destruct (list_eq_dec _ _ _); reflexivity. }
  rewrite CK. destruct (match ck with None => Ok None | Some c => _ end) as [c|x]; [|reflexivity]. cbn [mapped bind]. destruct (match ce with None => Ok None | Some _ => _ end) as [ed|x]; [|reflexivity]. cbn [bind]. destruct (res <? 0)%Z; [reflexivity|]. destruct (dim w3 0 =? 0)%nat; [reflexivity|]. destruct (dim w3 2 =? 1)%nat; [reflexivity|].
  assert (TD : forall j, at_ (rescaled a b w3) [0; 0; j]%nat = at_ w3 [0; 0; j]%nat). { intros j. unfold rescaled. cbn [at_]. rewrite (as_3d_three w w3 W). reflexivity. } rewrite !TD.
  destruct cfg as [[cf|]|]; reflexivity.
Qed.
Lemma construct_shaped w ck ce mk res cfg e : construct w ck ce mk res cfg = Ok e -> shaped e.
Proof.
  unfold construct. destruct (as_3d w) as [w3|x] eqn:W; [|discriminate]. cbn [bind]. destruct (negb _ || _); [discriminate|]. intros E. assert (CK : forall c, match ck with None => Ok None | Some c => c <- as_3d c ;; if list_eq_dec Nat.eq_dec (shape c) (shape w3) then Ok (Some c) else Err ValueError end = Ok (Some c) -> three c).
  { intros c Q. destruct ck as [c0|]; [|discriminate]. destruct (as_3d c0) as [c3|] eqn:C3; [|discriminate]. cbn [bind] in Q. destruct (list_eq_dec _ _ _); [|discriminate]. injection Q as <-. exact (as_3d_three _ _ C3). }
  destruct (match ck with None => Ok None | Some c => _ end) as [c|x] eqn:Q; [|discriminate]. cbn [bind] in E. destruct (match ce with None => Ok None | Some _ => _ end) as [ed|x]; [|discriminate]. cbn [bind] in E. destruct (res <? 0)%Z; [discriminate|]. destruct (dim w3 0 =? 0)%nat; [discriminate|]. destruct (dim w3 2 =? 1)%nat; [discriminate|]. destruct (match cfg with None => _ | Some _ => _ end) as [cf|]; [|discriminate]. cbn [bind] in E. injection E as <-.
  split; [exact (as_3d_three w w3 W)|]. cbn [e_clocks]. intros c0 ->. apply CK. reflexivity.
Qed.

(** *** C68 *)
(** An object is accepted in one unit iff in the other, with the same error. *)
Theorem C68_construct : forall a b w ck ce mk res cfg,
  construct (rescaled a b w) (option_map (rescaled a b) ck) ce (option_map (rescaled_mask a) mk) res (rescaled_config a b cfg)
  = mapped (eye_in_units a b) (construct w ck ce mk res cfg).
Proof. exact construct_in_units. Qed.
Print Assumptions C68_construct.
(** Whatever is done with the two objects, what is returned or raised and what
    can be read afterwards are the same up to the units. *)
Theorem C68_units : forall a b round6 fit aic new_cdr percentile cast fuel draw w ck ce mk res cfg e e' cs cs' rs e1 rs' e1',
  0 < a -> percentile_in_units a b percentile ->
  construct w ck ce mk res cfg = Ok e ->
  construct (rescaled a b w) (option_map (rescaled a b) ck) ce (option_map (rescaled_mask a) mk) res (rescaled_config a b cfg) = Ok e' ->
  Forall2 (same_call a b) cs cs' ->
  performs round6 fit aic new_cdr percentile cast fuel draw cs e = (rs, e1) ->
  performs round6 fit aic new_cdr percentile cast fuel draw cs' e' = (rs', e1') ->
  rs' = map (mapped (option_map (measures_in_units a b))) rs
  /\ get_measures e1' = mapped (option_map (measures_in_units a b)) (get_measures e1)
  /\ get_clock_edges e1' = get_clock_edges e1
  /\ (forall nrzm, bit_stream e1' nrzm = bit_stream e1 nrzm)
  /\ get_raw_heatmap e1' = get_raw_heatmap e1 /\ get_images e1' = get_images e1.
Proof.
  intros a b round6 fit aic new_cdr percentile cast fuel draw w ck ce mk res cfg e e' cs cs' rs e1 rs' e1' A PU E E' F P P'. rewrite construct_in_units, E in E'. cbn [mapped] in E'. injection E' as <-.
  rewrite (agree_performs a b A round6 fit aic new_cdr percentile cast fuel draw PU cs cs' F e (construct_shaped _ _ _ _ _ _ _ E)), P in P'. cbn [fst snd] in P'. injection P' as <- <-. split; [reflexivity|]. unfold get_measures, get_clock_edges, bit_stream, get_raw_heatmap, get_images. cbn [eye_in_units e_calculated e_measures e_clock_edges e_edge_dir e_heatmap e_images].
  split; [destruct (e_calculated e1); reflexivity|]. repeat split.
Qed.
Print Assumptions C68_units.
(** With values only multiplied, the default configuration stays the default. *)
Theorem C68_default : forall a, in_units a 0 default_config = default_config.
Proof. intros a. unfold in_units, default_config. cbn -[Rmult Rplus]. f_equal. ring. Qed.
Print Assumptions C68_default.
(** numpy's percentile is in the units of the values. *)
Lemma insert_units a b x l : 0 < a -> insert (a * x + b) (map (fun v => a * v + b) l) = map (fun v => a * v + b) (insert x l).
Proof. intros A. induction l as [|y l IH]; [reflexivity|]. cbn [map insert]. cbn [nlt NumR]. rewrite Rltb_f by exact A. destruct (Rltb x y); [reflexivity|]. cbn [map]. rewrite IH. reflexivity. Qed.
Lemma sorted_units a b l : 0 < a -> sorted (map (fun v => a * v + b) l) = map (fun v => a * v + b) (sorted l).
Proof.
  intros A. unfold sorted. change (@nil R) with (map (fun v => a * v + b) []) at 1. generalize (@nil R). induction l as [|x l IH]; intros acc; [reflexivity|]. cbn [map fold_left]. rewrite insert_units by exact A. apply IH.
Qed.
Lemma sorted_length (l : list R) : length (sorted l) = length l.
Proof.
  assert (I : forall (x : R) k, length (insert x k) = S (length k)) by (intros x k; induction k as [|y k IH]; [reflexivity|]; cbn [insert]; destruct (_ <. _)%num; cbn [length]; [reflexivity|rewrite IH; reflexivity]).
  unfold sorted. assert (G : forall acc : list R, length (fold_left (fun acc x => insert x acc) l acc) = (length l + length acc)%nat) by (induction l as [|x l IH]; intros acc; [reflexivity|]; cbn [fold_left length]; rewrite IH, I; lia). rewrite G. cbn [length]. lia.
Qed.
Theorem C68_percentile : forall a b, 0 < a -> percentile_in_units a b median_unbiased.
Proof.
  intros a b A l q NE. unfold median_unbiased. rewrite sorted_units by exact A. rewrite map_length. set (s := sorted l). cbv zeta. set (x := Rmax 0 _). set (i := Z.to_nat (Int_part x)).
  assert (LS : (0 < length s)%nat). { unfold s. rewrite sorted_length. destruct l; [congruence|cbn; lia]. }
  assert (LI : (i < length s)%nat).
  { assert (X : x <= IZR (Z.of_nat (length s) - 1)) by (unfold x; apply Rmax_lub; [apply IZR_le; lia|apply Rmin_l]). destruct (base_Int_part x) as (IP & _). unfold i. assert (IZ : (Int_part x <= Z.of_nat (length s) - 1)%Z) by (apply le_IZR; lra). lia. }
  assert (NM : forall k, (k < length s)%nat -> nth k (map (fun v => a * v + b) s) 0 = a * nth k s 0 + b). { intros k K. rewrite (nth_indep _ 0 (a * 0 + b)) by (rewrite map_length; exact K). apply (map_nth (fun v => a * v + b)). }
  rewrite !NM by lia. ring.
Qed.
Print Assumptions C68_percentile.

(** ** A concrete case: the records of C67_met in thousandths, from 3. *)
Example C68_met round6 fit aic new_cdr cast fuel draw : exists e e' m e1 m' e1',
  construct bits_wave None (Some (ListOf [(true, bits_clock)])) None 10 (Some (Some bits_config')) = Ok e
  /\ construct (rescaled 1000 3 bits_wave) None (Some (ListOf [(true, bits_clock)])) None 10 (Some (Some (in_units 1000 3 bits_config'))) = Ok e'
  /\ performs round6 fit aic new_cdr median_unbiased cast fuel draw [Calculate false] e = ([Ok (Some m)], e1)
  /\ performs round6 fit aic new_cdr median_unbiased cast fuel draw [Calculate false] e' = ([Ok (Some m')], e1')
  /\ m' = measures_in_units 1000 3 m /\ bit_stream e1' false = Ok [[1; 0; 1; 0]%Z].
Proof.
  destruct (C67_met round6 fit aic new_cdr median_unbiased cast fuel draw) as (e & m & e1 & C & _ & (CA & _) & BS).
  assert (C' : construct (rescaled 1000 3 bits_wave) None (Some (ListOf [(true, bits_clock)])) None 10 (Some (Some (in_units 1000 3 bits_config'))) = Ok (eye_in_units 1000 3 e)).
  { pose proof (C68_construct 1000 3 bits_wave None (Some (ListOf [(true, bits_clock)])) None 10 (Some (Some bits_config'))) as Q. rewrite C in Q. exact Q. }
  assert (P : performs round6 fit aic new_cdr median_unbiased cast fuel draw [Calculate false] e = ([Ok (Some m)], e1)) by (cbn [performs perform]; rewrite CA; reflexivity).
  destruct (performs round6 fit aic new_cdr median_unbiased cast fuel draw [Calculate false] (eye_in_units 1000 3 e)) as [rs' e1'] eqn:P'.
  destruct (C68_units 1000 3 round6 fit aic new_cdr median_unbiased cast fuel draw bits_wave None (Some (ListOf [(true, bits_clock)])) None 10 (Some (Some bits_config')) e _ [Calculate false] [Calculate false] [Ok (Some m)] e1 rs' e1' ltac:(lra) (C68_percentile 1000 3 ltac:(lra)) C C') as (RS & _ & _ & BT & _); [repeat constructor|exact P|exact P'|].
  exists e, (eye_in_units 1000 3 e), m, e1, (measures_in_units 1000 3 m), e1'. split; [exact C|]. split; [exact C'|]. split; [exact P|]. split; [rewrite P', RS; reflexivity|]. split; [reflexivity|]. rewrite BT. exact BS.
Qed.
