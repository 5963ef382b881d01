(** C69: the unit and the origin of time do not matter. *)
From Coq Require Import ZArith Reals Bool List Lia Lra FunctionalExtensionality Permutation.
Import ListNotations.
From Verif Require CdrModel CdrSpec CdrProps CdrTimeProofs.
From Verif Require Import Base Num RBool LinesModel StatsModel MaskModel EyeModel EyeSpec Pam2Model EyeImageModel EyeRunModel EyeRunSpec EyeRunProofs EyeUnitsSpec EyeUnitsProofs EyeUnitsProps EyeTimeSpec EyeTimeProofs EyeReportProps EyeDataProps.
Local Open Scope R_scope.
Local Open Scope result_scope.

Section Time.
Variables s o : R.
Hypothesis S0 : 0 < s.
Variable k : Z.
Variable round6 : R -> R.
Variable fit : nat -> list R -> result (list (R * R * R)).
Variable aic : list (R * R * R) -> list R -> R.
Variable new_cdr : R -> cdr.
Variable percentile : list R -> R -> R.
Variable cast : R -> Z.
Variable fuel : nat.
Variable draw : drawing.
Hypothesis NC : forall p, new_cdr (s * p) = retimed_cdr s o (new_cdr p).
Let M := eye_in_time s o.
Let g (t : R) : R := s * t + o.

Definition placed (e : eye) : Prop := shaped e /\ o = IZR k * (s * e_t_delta e).
Definition follows {X} (h : X -> X) (m : act X) : Prop := forall e, placed e -> m (M e) = (mapped h (fst (m e)), M (snd (m e))).
Definition stays (e e' : eye) : Prop := placed e -> placed e'.
Lemma stays_refl e : stays e e. Proof. intros P. exact P. Qed.
Lemma stays_trans x y z : stays x y -> stays y z -> stays x z. Proof. intros H K P. exact (K (H P)). Qed.
Lemma follows_bind {X Y} (h : X -> X) (f : Y -> Y) (m : act X) (q : X -> act Y) : keeps stays m -> follows h m -> (forall x, follows f (q x)) -> (forall x, q (h x) = q x) -> follows f (abind m q).
Proof.
  intros KP AM AK HK e P. unfold abind. rewrite (AM e P). pose proof (KP e P) as P'. destruct (m e) as [[x|x] e']; cbn [fst snd mapped] in * ; [|reflexivity]. rewrite HK. apply AK. exact P'.
Qed.
Notation id_u := (fun u : unit => u).
Lemma follows_step1 d : follows id_u (step1_levels round6 fit aic d).
Proof.
  intros e ((T & _) & _). unfold step1_levels, abind, read, alift, update. change (e_waveforms (M e)) with (retimed s o (e_waveforms e)). rewrite snd_retimed by exact T.
  change (find_levels round6 fit aic (e_config (M e)) (concat (map snd (waves (e_waveforms e)))) d) with (find_levels round6 fit aic (e_config e) (concat (map snd (waves (e_waveforms e)))) d). destruct (find_levels round6 fit aic (e_config e) _ d) as [l|x]; reflexivity.
Qed.
Lemma follows_pam2_clock : follows id_u (pam2_clock new_cdr).
Proof.
  intros e ((T & TC) & _). unfold pam2_clock, abind, read. change (e_clock_edges (M e)) with (option_map (edges_in_time s o) (e_clock_edges e)). destruct (e_clock_edges e); [reflexivity|]. cbn [option_map]. change (e_levels (M e)) with (e_levels e). destruct (e_levels e) as [l|] eqn:L; [|reflexivity].
  change (e_clocks (M e)) with (option_map (retimed s o) (e_clocks e)). change (c_polarity (e_config (M e))) with (c_polarity (e_config e)). destruct (e_clocks e) as [ck|] eqn:K; cbn [option_map].
  - rewrite (collect_time s o S0) by (apply TC; reflexivity). destruct (collect _ _) as [edges failed]. unfold update, alift. cbn [fst snd]. rewrite map_map. destruct failed; cbn [outcome mapped fst snd]; f_equal; unfold M, eye_in_time, set_clock; cbn -[in_time retimed retimed_mask measures_in_time]; rewrite map_map; reflexivity.
  - destruct (l_low_snr l); [reflexivity|]. change (c_fallback_period (e_config (M e))) with (s * c_fallback_period (e_config e)). change (e_waveforms (M e)) with (retimed s o (e_waveforms e)).
    change (c_cdr (e_config (M e))) with (option_map (retimed_cdr s o) (c_cdr (e_config e))).
    assert (CD : match option_map (retimed_cdr s o) (c_cdr (e_config e)) with Some c => c | None => new_cdr (s * c_fallback_period (e_config e)) end = retimed_cdr s o (match c_cdr (e_config e) with Some c => c | None => new_cdr (c_fallback_period (e_config e)) end)) by (destruct (c_cdr (e_config e)); [reflexivity|apply NC]). cbv zeta. rewrite CD. set (c := match c_cdr (e_config e) with Some c => c | None => _ end).
    rewrite (collect_cdr_time s o S0) by exact T. destruct (collect _ _) as [r failed]. unfold update, alift. cbn [fst snd]. rewrite !map_map.
    destruct failed; cbn [outcome mapped fst snd]; f_equal; unfold M, eye_in_time, set_clock, set_config, edges_in_time; cbn -[in_time retimed retimed_mask measures_in_time retimed_cdr with_cdr]; rewrite !map_map; reflexivity.
Qed.
Lemma follows_base_clock d : follows id_u (base_clock d).
Proof.
  intros e ((T & TC) & _). unfold base_clock, abind, read. change (e_clock_edges (M e)) with (option_map (edges_in_time s o) (e_clock_edges e)). destruct (e_clock_edges e) as [ed|] eqn:CE; cbn [option_map].
  - unfold aret, alift, update, araise. change (e_clock_edges (M e)) with (option_map (edges_in_time s o) (e_clock_edges e)). rewrite CE. cbn [option_map]. unfold edges_in_time. rewrite (period_time s o S0). destruct (symbol_period ed); [|reflexivity]. cbn [bind]. change (e_ties (M e)) with (option_map (map (map (Rmult s))) (e_ties e)). destruct d; [|reflexivity]. destruct (e_ties e); reflexivity.
  - change (c_fallback_period (e_config (M e))) with (s * c_fallback_period (e_config e)). change (e_waveforms (M e)) with (retimed s o (e_waveforms e)). rewrite (collect_fallback_time s o S0) by exact T. destruct (collect _ _) as [edges failed]. cbn [fst snd]. unfold update, alift, aret, araise.
    assert (SC : set_clock (map (map g) edges) (map (fun _ => []) (map (map g) edges)) (M e) = M (set_clock edges (map (fun _ => []) edges) e)) by (unfold M, eye_in_time, set_clock; cbn -[in_time retimed retimed_mask measures_in_time]; rewrite !map_map; reflexivity). fold g. rewrite SC. destruct failed; [reflexivity|]. cbn [outcome]. change (e_clock_edges (M (set_clock edges (map (fun _ => []) edges) e))) with (Some (map (map g) edges)). change (e_clock_edges (set_clock edges (map (fun _ => []) edges) e)) with (Some edges). cbv iota. unfold g. rewrite (period_time s o S0). destruct (symbol_period edges); [|reflexivity]. destruct d; reflexivity.
Qed.
Lemma follows_step2 d : follows id_u (step2_clock new_cdr d).
Proof.
  unfold step2_clock. apply (follows_bind id_u id_u); [|apply follows_pam2_clock|intros _; apply follows_base_clock|reflexivity].
  apply (keeps_pam2_clock new_cdr stays stays_refl stays_trans); intros; intros P; exact P.
Qed.
Lemma scaled_zero t : Reqb (s * t) 0 = Reqb t 0.
Proof. destruct (Reqb t 0) eqn:P; [apply Reqb_true in P; apply Reqb_true; rewrite P; ring|apply Reqb_false in P; apply Reqb_false; intros Q; apply Rmult_integral in Q; lra]. Qed.
Lemma follows_step3 : follows id_u step3_sample_.
Proof.
  intros e ((T & TC) & O). unfold step3_sample_, abind, read. change (e_t_sym (M e)) with (option_map (Rmult s) (e_t_sym e)). change (e_clock_edges (M e)) with (option_map (edges_in_time s o) (e_clock_edges e)). destruct (e_t_sym e) as [t|]; [|reflexivity]. destruct (e_clock_edges e) as [ed|]; [|reflexivity]. cbn [option_map]. change (e_t_delta (M e)) with (s * e_t_delta e). rewrite scaled_zero. destruct (Reqb (e_t_delta e) 0) eqn:Z0; [reflexivity|]. apply Reqb_false in Z0. change (e_waveforms (M e)) with (retimed s o (e_waveforms e)). unfold edges_in_time.
  rewrite (sample_all_time s o S0 t (e_t_delta e) ed (e_waveforms e) k T Z0 O). unfold alift, update. destruct (sample_all _ _ _ _); reflexivity.
Qed.
Lemma follows_step4 : follows id_u (step4_measure percentile).
Proof.
  intros e ((T & TC) & _). unfold step4_measure, abind, update, alift, read, aret. change (e_t_sym (M e)) with (option_map (Rmult s) (e_t_sym e)). change (e_centers (M e)) with (option_map (map (map (smove s))) (e_centers e)). change (e_levels (M e)) with (e_levels e).
  destruct (e_t_sym e) as [t|] eqn:TS; [|reflexivity]. destruct (e_levels e) as [l|] eqn:L; [|reflexivity]. destruct (e_centers e) as [centers|] eqn:C; [|reflexivity]. cbn [option_map].
  set (c := e_config e). change (e_config (M e)) with (in_time s o c). change (e_waveforms (M e)) with (retimed s o (e_waveforms e)). change (e_t_delta (M e)) with (s * e_t_delta e). change (e_mask (M e)) with (option_map (retimed_mask s) (e_mask e)).
  change (c_skip_measures (in_time s o c)) with (c_skip_measures c). rewrite count_time, (samples_time s S0). destruct (c_skip_measures c); [reflexivity|].
  change (c_level_width (in_time s o c)) with (c_level_width c). change (c_cross_width (in_time s o c)) with (c_cross_width c). change (c_time_height (in_time s o c)) with (c_time_height c). change (c_edge_lower (in_time s o c)) with (c_edge_lower c). change (c_edge_upper (in_time s o c)) with (c_edge_upper c). change (c_noise_floor (in_time s o c)) with (c_noise_floor c). change (c_y_0 (in_time s o c)) with (c_y_0 c). change (c_y_1 (in_time s o c)) with (c_y_1 c). change (c_y_th (in_time s o c)) with (c_y_th c).
  rewrite combine_time by exact T. set (ws := combine (map snd (waves (e_waveforms e))) centers). rewrite (collect_vertical_time s S0). destruct (collect _ ws) as [vs failed]. cbn [fst snd].
  destruct failed as [x|]; [reflexivity|]. cbn [outcome]. set (v := fold_left merge vs no_vertical). set (my := measure_y percentile (c_noise_floor c) v).
  destruct (some_value (m_y_0 my)) as [m0|x]; [|reflexivity]. destruct (some_value (m_amp my)) as [amp|x]; [|reflexivity].
  destruct (update_levels (c_y_0 c) (c_y_1 c) (c_y_th c) m0 amp (l_zero l) (l_half l)) as [[z ua] h].
  destruct (some_value (m_y_cross my)) as [yc|x]; [|reflexivity].
  assert (WS : combine (map (tw s) ws) (map (fun v => v_edge_dir v) vs) = map (fun p => (tw s (fst p), snd p)) (combine ws (map (fun v => v_edge_dir v) vs))) by apply combine_map_l. rewrite WS.
  rewrite (horizontal_time s S0). destruct (measure_horizontal _ _ _ _ _ _ _ _ _ _) as [hz|x]; [|reflexivity]. destruct (e_mask e) as [mk|] eqn:MK.
  - cbn [option_map]. rewrite (mask_convert_time s S0). destruct (mask_convert mk ua t) as [mc|x]; [|reflexivity]. change (Some (retimed_mask s mk)) with (option_map (retimed_mask s) (Some mk)). rewrite (mask_time s S0). destruct (eye_sample_mask _ _ _ _ _ _ _) as [[[[offs hs] margin] bad]|x]; [|reflexivity].
    rewrite (bathtub_time s S0). destruct (bathtub_curves _ _ _ _ _ _ _) as [curves|x]; [|reflexivity]. rewrite (measure_t_time s S0). reflexivity.
  - cbn [option_map eye_sample_mask]. rewrite (bathtub_time s S0). destruct (bathtub_curves _ _ _ _ _ _ _) as [curves|x]; [|reflexivity]. rewrite (measure_t_time s S0). reflexivity.
Qed.
Lemma follows_step5 : follows id_u (step5_stack cast fuel draw).
Proof.
  intros e ((T & TC) & _). unfold step5_stack, abind, update, alift, read. change (e_t_sym (M e)) with (option_map (Rmult s) (e_t_sym e)). change (e_centers (M e)) with (option_map (map (map (smove s))) (e_centers e)). change (e_levels (M e)) with (e_levels e). change (e_measures (M e)) with (option_map (measures_in_time s) (e_measures e)).
  destruct (e_t_sym e) as [t|]; [|reflexivity]. destruct (e_levels e) as [l|]; [|reflexivity]. destruct (e_centers e) as [centers|]; [|reflexivity]. destruct (e_measures e) as [m|]; [|reflexivity]. cbn [option_map].
  change (e_waveforms (M e)) with (retimed s o (e_waveforms e)). rewrite combine_time by exact T. set (ws := combine (map snd (waves (e_waveforms e))) centers). change (e_t_delta (M e)) with (s * e_t_delta e). rewrite (heatmap_time s S0).
  change (e_resolution (M e)) with (e_resolution e). change (c_point_cloud (e_config (M e))) with (c_point_cloud (e_config e)). change (n_sym (measures_in_time s m)) with (n_sym m). destruct (step5_heatmap _ _ _ _ _ _ _ _ _ _ _) as [h|x]; [|reflexivity].
  rewrite (images_time s S0). change (c_edge_lower (e_config (M e))) with (c_edge_lower (e_config e)). change (c_edge_upper (e_config (M e))) with (c_edge_upper (e_config e)). change (e_converted (M e)) with (e_converted e). change (mask_margin (measures_in_time s m)) with (mask_margin m). change (e_hits (M e)) with (e_hits e). change (e_offenders (M e)) with (e_offenders e).
  destruct (draw_images _ _ _ _ _ _ _ _ _ _ _ _ _ _ _) as [im|x]; reflexivity.
Qed.
Lemma follows_steps d : follows id_u (steps round6 fit aic new_cdr percentile cast fuel draw d).
Proof.
  unfold steps. apply (follows_bind id_u id_u); [apply keeps_step1; try exact stays_refl; try exact stays_trans; intros; intros Q; exact Q|apply follows_step1|intros _|reflexivity].
  apply (follows_bind id_u id_u); [apply keeps_step2; try exact stays_refl; try exact stays_trans; intros; intros Q; exact Q|apply follows_step2|intros _|reflexivity].
  apply (follows_bind id_u id_u); [apply keeps_step3; try exact stays_refl; try exact stays_trans; intros; intros Q; exact Q|apply follows_step3|intros _|reflexivity].
  apply (follows_bind id_u id_u); [apply keeps_step4; try exact stays_refl; try exact stays_trans; intros; intros Q; exact Q|apply follows_step4|intros _; apply follows_step5|reflexivity].
Qed.
Lemma stays_steps d : keeps stays (steps round6 fit aic new_cdr percentile cast fuel draw d).
Proof. apply keeps_steps; try exact stays_refl; try exact stays_trans; intros; intros Q; exact Q. Qed.
Let calculate := calculate round6 fit aic new_cdr percentile cast fuel draw.
Let performs := performs round6 fit aic new_cdr percentile cast fuel draw.
Lemma follows_calculate d : follows (measures_in_time s) (calculate d).
Proof.
  intros e P. unfold calculate. rewrite !calculate_steps. rewrite (follows_steps d e P). destruct (steps _ _ _ _ _ _ _ _ d e) as [[u|x] e1]; cbn [fst snd mapped]; [|reflexivity]. change (e_measures (M e1)) with (option_map (measures_in_time s) (e_measures e1)). destruct (e_measures e1); reflexivity.
Qed.
Lemma stays_calculate d : keeps stays (calculate d).
Proof. intros e P. unfold calculate. rewrite calculate_steps. pose proof (stays_steps d e P) as K. destruct (steps _ _ _ _ _ _ _ _ d e) as [[u|x] e1]; cbn [snd] in * ; [|exact K]. destruct (e_measures e1); exact K. Qed.
Lemma follows_performs cs cs' : Forall2 (same_call_in_time s o) cs cs' -> forall e, placed e ->
  performs cs' (M e) = (map (mapped (option_map (measures_in_time s))) (fst (performs cs e)), M (snd (performs cs e))).
Proof.
  intros F. induction F as [|c c' cs cs' [d|h h' G] F IH]; intros e P; [reflexivity| |].
  - unfold performs in *  . cbn [EyeRunModel.performs perform]. fold calculate. rewrite (follows_calculate d e P). pose proof (stays_calculate d e P) as P'. destruct (calculate d e) as [r e1]. cbn [fst snd] in *  . rewrite (IH e1 P'). destruct (EyeRunModel.performs _ _ _ _ _ _ _ _ cs e1) as [rs e2]. cbn [fst snd map]. destruct r; reflexivity.
  - unfold performs in *  . cbn [EyeRunModel.performs perform]. replace (set_config (h' (e_config (M e))) (M e)) with (M (set_config (h (e_config e)) e)) by (unfold M, eye_in_time, set_config; cbn -[in_time retimed retimed_mask measures_in_time]; rewrite G; reflexivity).
    rewrite (IH (set_config (h (e_config e)) e) P). destruct (EyeRunModel.performs _ _ _ _ _ _ _ _ cs _) as [rs e2]. reflexivity.
Qed.
End Time.

Lemma as_3d_retimed s o w : as_3d (retimed s o w) = mapped (retimed s o) (as_3d w).
Proof.
  unfold as_3d. change (shape (retimed s o w)) with (shape w). destruct (length (shape w)) as [|[|[|[|n]]]] eqn:L; try reflexivity. cbn [mapped]. f_equal. unfold retimed. cbn [shape at_ length]. rewrite L. f_equal. apply functional_extensionality. intros [|x i]; reflexivity.
Qed.
Lemma construct_in_time s o w ck ce mk res cfg : construct (retimed s o w) (option_map (retimed s o) ck) (option_map (retimed_edges s o) ce) (option_map (retimed_mask s) mk) res (retimed_config s o cfg)
  = mapped (eye_in_time s o) (construct w ck ce mk res cfg).
Proof.
  unfold construct. rewrite as_3d_retimed. destruct (as_3d w) as [w3|x] eqn:W; [|reflexivity]. cbn [mapped bind]. change (dim (retimed s o w3)) with (dim w3). change (shape (retimed s o w3)) with (shape w3). destruct (negb _ || _); [reflexivity|].
  assert (CK : (match option_map (retimed s o) ck with None => Ok None | Some c => c <- as_3d c ;; if list_eq_dec Nat.eq_dec (shape c) (shape w3) then Ok (Some c) else Err ValueError end)
    = mapped (option_map (retimed s o)) (match ck with None => Ok None | Some c => c <- as_3d c ;; if list_eq_dec Nat.eq_dec (shape c) (shape w3) then Ok (Some c) else Err ValueError end)).
  { destruct ck as [c|]; [|reflexivity]. cbn [option_map]. rewrite as_3d_retimed. destruct (as_3d c) as [c3|x]; [|reflexivity]. cbn [mapped bind]. change (shape (retimed s o c3)) with (shape c3). destruct (list_eq_dec _ _ _); reflexivity. }
  rewrite CK. destruct (match ck with None => Ok None | Some c => _ end) as [c|x]; [|reflexivity]. cbn [mapped bind].
  assert (EG : (match option_map (retimed_edges s o) ce with None => Ok None | Some NotAList => Err ValueError | Some (ListOf l) => if negb (length l =? dim w3 0)%nat then Err ValueError else first <- get l 0 ;; if negb (fst first) then Err ValueError else Ok (Some (map snd l)) end)
    = mapped (option_map (edges_in_time s o)) (match ce with None => Ok None | Some NotAList => Err ValueError | Some (ListOf l) => if negb (length l =? dim w3 0)%nat then Err ValueError else first <- get l 0 ;; if negb (fst first) then Err ValueError else Ok (Some (map snd l)) end)).
  { destruct ce as [[|l]|]; [reflexivity| |reflexivity]. cbn [option_map retimed_edges]. rewrite map_length, get_map. destruct (negb _); [reflexivity|]. destruct (get l 0) as [x|]; [|reflexivity]. cbn [bind fst]. destruct (fst x); [|reflexivity]. cbn [negb mapped option_map]. unfold edges_in_time. rewrite !map_map. reflexivity. }
  rewrite EG. destruct (match ce with None => Ok None | Some _ => _ end) as [ed|x]; [|reflexivity]. cbn [mapped bind]. destruct (res <? 0)%Z; [reflexivity|]. destruct (dim w3 0 =? 0)%nat; [reflexivity|]. destruct (dim w3 2 =? 1)%nat; [reflexivity|].
  assert (TD : forall j, at_ (retimed s o w3) [0; 0; j]%nat = s * at_ w3 [0; 0; j]%nat + o). { intros j. unfold retimed. cbn [at_]. rewrite (as_3d_three w w3 W). reflexivity. } rewrite !TD.
  assert (D : forall x y n, (s * x + o - (s * y + o)) / n = s * ((x - y) / n)) by (intros; unfold Rdiv; ring). rewrite D.
  destruct cfg as [[cf|]|]; reflexivity.
Qed.

(** *** C69 *)
(** An object is accepted in one time iff in the other, with the same error. *)
Theorem C69_construct : forall s o w ck ce mk res cfg,
  construct (retimed s o w) (option_map (retimed s o) ck) (option_map (retimed_edges s o) ce) (option_map (retimed_mask s) mk) res (retimed_config s o cfg)
  = mapped (eye_in_time s o) (construct w ck ce mk res cfg).
Proof. exact construct_in_time. Qed.
Print Assumptions C69_construct.
(** Whatever is done with the two objects, what is returned or raised and what
    can be read afterwards are the same up to unit and origin of time, if the
    origin moves by whole sample periods and the clock recovery built from a
    period follows the change. *)
Theorem C69_time : forall s o k round6 fit aic new_cdr percentile cast fuel draw w ck ce mk res cfg e e' cs cs' rs e1 rs' e1',
  0 < s -> (forall p, new_cdr (s * p) = retimed_cdr s o (new_cdr p)) ->
  construct w ck ce mk res cfg = Ok e ->
  o = IZR k * (s * e_t_delta e) ->
  construct (retimed s o w) (option_map (retimed s o) ck) (option_map (retimed_edges s o) ce) (option_map (retimed_mask s) mk) res (retimed_config s o cfg) = Ok e' ->
  Forall2 (same_call_in_time s o) cs cs' ->
  performs round6 fit aic new_cdr percentile cast fuel draw cs e = (rs, e1) ->
  performs round6 fit aic new_cdr percentile cast fuel draw cs' e' = (rs', e1') ->
  rs' = map (mapped (option_map (measures_in_time s))) rs
  /\ get_measures e1' = mapped (option_map (measures_in_time s)) (get_measures e1)
  /\ get_clock_edges e1' = mapped (option_map (edges_in_time s o)) (get_clock_edges e1)
  /\ (forall nrzm, bit_stream e1' nrzm = bit_stream e1 nrzm)
  /\ get_raw_heatmap e1' = get_raw_heatmap e1 /\ get_images e1' = get_images e1.
Proof.
  intros s o k round6 fit aic new_cdr percentile cast fuel draw w ck ce mk res cfg e e' cs cs' rs e1 rs' e1' S0 NC E O E' F P P'. rewrite construct_in_time, E in E'. cbn [mapped] in E'. injection E' as <-.
  rewrite (follows_performs s o S0 k round6 fit aic new_cdr percentile cast fuel draw NC cs cs' F e (conj (construct_shaped _ _ _ _ _ _ _ E) O)), P in P'. cbn [fst snd] in P'. injection P' as <- <-. split; [reflexivity|]. unfold get_measures, get_clock_edges, bit_stream, get_raw_heatmap, get_images. cbn [eye_in_time e_calculated e_measures e_clock_edges e_edge_dir e_heatmap e_images].
  split; [destruct (e_calculated e1); reflexivity|]. split; [destruct (e_calculated e1); reflexivity|]. repeat split.
Qed.
Print Assumptions C69_time.
(** Moving only the origin keeps the default configuration. *)
Theorem C69_default : forall o, in_time 1 o default_config = default_config.
Proof. intros o. unfold in_time, default_config. cbn -[Rmult Rplus]. f_equal. ring. Qed.
Print Assumptions C69_default.

(** Clock recovery follows: with a fixed period any change, with a searched
    period a change of the origin. *)
Definition recovery_from (sort : list (R * R) -> list (R * R)) (n_comp : Z) (compiled fixed resampled : bool) (p : R) : cdr :=
  fun edges => CdrModel.run Int_part sort n_comp compiled fixed (Some p) edges resampled.
Theorem C69_recovery : forall s o sort n_comp compiled fixed resampled p, 0 < s -> fixed = true \/ s = 1 ->
  recovery_from sort n_comp compiled fixed resampled (s * p) = retimed_cdr s o (recovery_from sort n_comp compiled fixed resampled p).
Proof.
  intros s o sort n_comp compiled fixed resampled p S0 FX. apply functional_extensionality. intros edges. unfold recovery_from, retimed_cdr. set (es := map (fun t => (t - o) / s) edges).
  assert (E : edges = map (fun t => s * t + o) es) by (unfold es; rewrite map_map; rewrite <- (map_id edges) at 1; apply map_ext; intros t; field; lra). rewrite E at 1.
  rewrite (CdrTimeProofs.run_time s o S0 sort n_comp compiled fixed p es resampled FX). destruct (CdrModel.run _ _ _ _ _ _ _ _); reflexivity.
Qed.
Print Assumptions C69_recovery.
(** The search for the period compares a time with a number of edges: with the
    unit of time the outcome changes, from a clock to an error. *)
Theorem C69_recovery_refuted : forall sort n_comp compiled resampled, CdrSpec.sorts sort -> (200000 <= n_comp)%Z ->
  exists p edges s r, 0 < s /\ recovery_from sort n_comp compiled false resampled p edges = Ok r
    /\ recovery_from sort n_comp compiled false resampled (s * p) (map (fun t => s * t) edges) = Err ArithmeticError.
Proof.
  intros sort n_comp compiled resampled SO NC. exists 1, (CdrSpec.ideal 0 (7 / 5 * 1) [0; 1]%Z), 1000.
  destruct (CdrTimeProofs.two_found sort SO n_comp NC 1 ltac:(lra) compiled resampled ltac:(lra)) as (r & E). exists r. split; [lra|]. split; [exact E|]. unfold recovery_from.
  replace (map (fun t => 1000 * t) (CdrSpec.ideal 0 (7 / 5 * 1) [0; 1]%Z)) with (CdrSpec.ideal 0 (7 / 5 * (1000 * 1)) [0; 1]%Z) by (unfold CdrSpec.ideal; cbn [map]; f_equal; [ring|f_equal; ring]).
  apply (CdrTimeProofs.two_lost sort SO n_comp NC); lra.
Qed.
Print Assumptions C69_recovery_refuted.
(** Both together: an object whose clock comes from its own signal, moved in time. *)
Theorem C69_moved : forall k sort n_comp compiled fixed resampled round6 fit aic percentile cast fuel draw w ck ce mk res cfg e e' cs cs' rs e1 rs' e1',
  let new_cdr := recovery_from sort n_comp compiled fixed resampled in
  construct w ck ce mk res cfg = Ok e ->
  let o := IZR k * e_t_delta e in
  construct (retimed 1 o w) (option_map (retimed 1 o) ck) (option_map (retimed_edges 1 o) ce) (option_map (retimed_mask 1) mk) res (retimed_config 1 o cfg) = Ok e' ->
  Forall2 (same_call_in_time 1 o) cs cs' ->
  performs round6 fit aic new_cdr percentile cast fuel draw cs e = (rs, e1) ->
  performs round6 fit aic new_cdr percentile cast fuel draw cs' e' = (rs', e1') ->
  rs' = rs /\ get_measures e1' = get_measures e1 /\ get_clock_edges e1' = mapped (option_map (edges_in_time 1 o)) (get_clock_edges e1)
  /\ (forall nrzm, bit_stream e1' nrzm = bit_stream e1 nrzm)
  /\ get_raw_heatmap e1' = get_raw_heatmap e1 /\ get_images e1' = get_images e1.
Proof.
  intros k sort n_comp compiled fixed resampled round6 fit aic percentile cast fuel draw w ck ce mk res cfg e e' cs cs' rs e1 rs' e1' new_cdr E o E' F P P'.
  destruct (C69_time 1 o k round6 fit aic new_cdr percentile cast fuel draw w ck ce mk res cfg e e' cs cs' rs e1 rs' e1' ltac:(lra)) as (RS & GM & GC & BS & GH & GI).
  - intros p. apply C69_recovery; [lra|right; reflexivity].
  - exact E.
  - unfold o. ring.
  - exact E'.
  - exact F.
  - exact P.
  - exact P'.
  - assert (M1 : forall u, moved 1 0 u = u) by (intros [v d]; unfold moved; cbn [value stddev]; f_equal; ring). assert (M1' : forall u, moved (/ 1) 0 u = u) by (intros [v d]; unfold moved; cbn [value stddev]; f_equal; field).
    assert (OM : forall u, option_map (moved 1 0) u = u) by (intros [u|]; cbn [option_map]; [rewrite M1|]; reflexivity). assert (OM' : forall u, option_map (moved (/ 1) 0) u = u) by (intros [u|]; cbn [option_map]; [rewrite M1'|]; reflexivity).
    assert (OR : forall u, option_map (Rmult 1) u = u) by (intros [u|]; cbn [option_map]; [f_equal; ring|reflexivity]).
    assert (MT : forall m, measures_in_time 1 m = m) by (intros [a b c d [t|] g h i]; unfold measures_in_time; cbn [n_sym n_samples transition_dist in_y in_t mask_margin n_sym_bad bathtub_curve option_map]; [|reflexivity]; destruct t; unfold t_in_time; cbn -[option_map moved Rmult Rinv]; rewrite !OM, OM', !OR; reflexivity).
    assert (MR : forall r, mapped (option_map (measures_in_time 1)) r = r) by (intros [[m|]|x]; cbn [mapped option_map]; [rewrite MT|..]; reflexivity).
    repeat split; try assumption; [rewrite RS; rewrite <- (map_id rs) at 2; apply map_ext; exact MR|rewrite GM; apply MR].
Qed.
Print Assumptions C69_moved.

(** ** A concrete case: the record of C67_met in nanoseconds instead of
    microseconds, three samples later. *)
Example C69_met round6 fit aic percentile cast fuel draw : let new_cdr := recovery_from CdrProps.insertion_sort 1000000 true true false in
  exists o e e' m e1 m' e1', o = 3 * (1000 * e_t_delta e) /\ 0 < e_t_delta e
  /\ construct bits_wave None (Some (ListOf [(true, bits_clock)])) None 10 (Some (Some bits_config')) = Ok e
  /\ construct (retimed 1000 o bits_wave) None (Some (ListOf [(true, map (fun t => 1000 * t + o) bits_clock)])) None 10 (Some (Some (in_time 1000 o bits_config'))) = Ok e'
  /\ performs round6 fit aic new_cdr percentile cast fuel draw [Calculate false] e = ([Ok (Some m)], e1)
  /\ performs round6 fit aic new_cdr percentile cast fuel draw [Calculate false] e' = ([Ok (Some m')], e1')
  /\ m' = measures_in_time 1000 m /\ bit_stream e1' false = Ok [[1; 0; 1; 0]%Z].
Proof.
  intros new_cdr. destruct (C67_met round6 fit aic new_cdr percentile cast fuel draw) as (e & m & e1 & C & _ & (CA & _) & BS).
  set (o := 3 * (1000 * e_t_delta e)).
  assert (C' : construct (retimed 1000 o bits_wave) None (Some (ListOf [(true, map (fun t => 1000 * t + o) bits_clock)])) None 10 (Some (Some (in_time 1000 o bits_config'))) = Ok (eye_in_time 1000 o e)).
  { pose proof (C69_construct 1000 o bits_wave None (Some (ListOf [(true, bits_clock)])) None 10 (Some (Some bits_config'))) as Q. rewrite C in Q. exact Q. }
  assert (P : performs round6 fit aic new_cdr percentile cast fuel draw [Calculate false] e = ([Ok (Some m)], e1)) by (cbn [performs perform]; rewrite CA; reflexivity).
  destruct (performs round6 fit aic new_cdr percentile cast fuel draw [Calculate false] (eye_in_time 1000 o e)) as [rs' e1'] eqn:P'.
  destruct (C69_time 1000 o 3 round6 fit aic new_cdr percentile cast fuel draw bits_wave None (Some (ListOf [(true, bits_clock)])) None 10 (Some (Some bits_config')) e (eye_in_time 1000 o e) [Calculate false] [Calculate false] [Ok (Some m)] e1 rs' e1' ltac:(lra)) as (RS & _ & _ & BT & _).
  - intros p. apply C69_recovery; [lra|left; reflexivity].
  - exact C.
  - reflexivity.
  - exact C'.
  - repeat constructor.
  - exact P.
  - exact P'.
  - exists o, e, (eye_in_time 1000 o e), m, e1, (measures_in_time 1000 m), e1'. split; [reflexivity|]. split; [|split; [exact C|]; split; [exact C'|]; split; [exact P|]; split; [rewrite P', RS; reflexivity|]; split; [reflexivity|]; rewrite BT; exact BS].
    clear -C. injection C as <-. change (0 < (INR 27 - INR 0) / INR 27). rewrite (INR_IZR_INZ 27), (INR_IZR_INZ 0). cbn [Z.of_nat Pos.of_succ_nat Pos.succ]. lra.
Qed.
