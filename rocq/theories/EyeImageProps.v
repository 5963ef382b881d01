(** C62: the images of a completed eye diagram. *)
From Coq Require Import ZArith Reals Bool List Sorted Lia Lra.
Import ListNotations.
From Verif Require Import Base Num RBool StatsModel DrawModel LinesModel LinesHitsProofs MaskModel MaskProofs EyeModel EyeSpec EyeProofs EyeRProofs EyeProps UncertainProofs Pam2Model Pam2Spec Pam2Proofs Pam2Props MathModel EyeImageModel EyeRunModel EyeRunSpec EyeRunProofs EyeRunPeriod EyeReportSpec EyeReportProps EyeTimesProps EyeImageSpec EyeImageProofs.
From Verif Require LinesSpec.
Local Open Scope R_scope.

(** ** Heat maps are not negative *)
Definition counted (g : grid) : Prop := forall x y, (0 <= cell g x y)%Z.
Lemma counted_plot g x y : counted g -> counted (plot g x y).
Proof. intros C. unfold plot. destruct (_ && _); [|exact C]. intros a b. unfold incr. cbn [cell]. specialize (C a b). destruct (_ && _); lia. Qed.
Lemma counted_loop fuel x2 y2 dx dy sx sy : forall x1 y1 err g g', counted g -> segment_loop fuel x2 y2 dx dy sx sy x1 y1 err g = Ok g' -> counted g'.
Proof.
  induction fuel as [|fuel IH]; intros x1 y1 err g g' C E; [discriminate|]. cbn [segment_loop] in E. destruct (_ && _); [injection E as <-; exact C|].
  destruct (- dy <? 2 * err)%Z; destruct (2 * err <? dx)%Z; eapply IH; try exact E; apply counted_plot; exact C.
Qed.
Lemma counted_draw fuel ps g g' : counted g -> DrawModel.draw fuel ps g = Ok g' -> counted g'.
Proof.
  intros C E. unfold DrawModel.draw in E. destruct ps as [|p [|q ps]]; try discriminate. cbn [tl] in E.
  assert (G : forall ps p g g' z, counted g -> draw_loop fuel p ps g = Ok (g', z) -> counted g').
  { clear. induction ps as [|q ps IH]; intros p g g' z C E; [injection E as <- _; exact C|]. cbn [draw_loop] in E. destruct (draw_segment fuel _ _ _ _ g) as [g1|] eqn:S; [|discriminate]. apply (IH _ _ _ _ (counted_loop _ _ _ _ _ _ _ _ _ _ _ _ C S) E). }
  destruct (draw_loop fuel p (q :: ps) g) as [[g1 [x y]]|] eqn:L; [|discriminate]. injection E as <-. apply counted_plot. exact (G _ _ _ _ _ C L).
Qed.
Lemma counted_stack cast fuel (y : list R) syms td t mi ma res g pc g' : counted g -> stack int_of_float cast fuel y syms td t mi ma res g pc = Ok g' -> counted g'.
Proof.
  intros C E. unfold stack in E. apply bind_ok in E. destruct E as (w & _ & E). apply bind_ok in E. destruct E as (t0 & _ & E). revert g C E. induction syms as [|s syms IH]; intros g C E; [injection E as <-; exact C|].
  cbn [foldM] in E. apply bind_ok in E. destruct E as (g1 & E1 & E). refine (IH g1 _ E). unfold stack_draw in E1. destruct pc; [|exact (counted_draw _ _ _ _ C E1)]. injection E1 as <-. unfold draw_points.
  match goal with |- counted (fold_left _ ?l _) => generalize l end. intros l. clear -C. revert g C. induction l as [|p l IH]; intros g C; [exact C|]. cbn [fold_left]. apply IH, counted_plot, C.
Qed.
Lemma heat_positive cast fuel (td t yz ua : R) ws res pc n h : (0 <= n)%Z -> step5_heatmap int_of_float cast fuel td t yz ua ws res pc n = Ok h -> forall row col, 0 <= h row col.
Proof.
  intros N E. unfold step5_heatmap in E. apply bind_ok in E. destruct E as (g & F & E). injection E as <-.
  assert (C : counted g). { revert F. match goal with |- foldM _ ?g0 _ = _ -> _ => assert (C0 : counted g0) by (intros x y; cbn; lia); generalize dependent g0 end. induction ws as [|w ws IH]; intros g0 C0 F; [injection F as <-; exact C0|]. cbn [foldM] in F. apply bind_ok in F. destruct F as (g1 & F1 & F). exact (IH _ (counted_stack _ _ _ _ _ _ _ _ _ _ _ _ C0 F1) F). }
  intros row col. assert (P : forall x y, 0 <= IZR (cell g x y)) by (intros x y; apply IZR_le, C). destruct pc; [|apply P]. cbn [nmul ndiv nofZ NumR]. apply Rmult_le_pos; [apply P|]. apply Rmult_le_pos; [apply IZR_le; exact N|]. left. apply Rinv_0_lt_compat.
  unfold amax. cbn [nlt nofZ NumR]. destruct (Rltb 1 _) eqn:L; [apply Rltb_true in L|]; lra.
Qed.

Section Images.
Variable round6 : R -> R.
Variable fit : nat -> list R -> result (list (R * R * R)).
Variable aic : list (R * R * R) -> list R -> R.
Variable new_cdr : R -> cdr.
Variable percentile : list R -> R -> R.
Variable cast : R -> Z.
Variable fuel : nat.
Variable draw : drawing.
Let calculate := calculate round6 fit aic new_cdr percentile cast fuel draw.
Let find_levels := find_levels round6 fit aic.
Let completed := completed round6 fit aic new_cdr percentile cast fuel draw.

Lemma pictured d e m e1 edges t : completed d e m e1 edges t -> exists l centers w t0 dirs y_zero y_ua syms im pr,
  0 < t /\ find_levels (e_config e) (all_samples (e_waveforms e)) d = Ok l
  /\ sample_all t (e_t_delta e) edges (waves (e_waveforms e)) = Ok centers
  /\ get_i_width int_of_float t (e_t_delta e) = Ok w /\ window_axis w t (e_t_delta e) = Ok t0
  /\ measured percentile (e_waveforms e) (e_mask e) (e_t_delta e) (e_config e) l t centers = Ok (m, dirs, y_zero, y_ua)
  /\ get_raw_heatmap e1 = Ok (e_heatmap e1) /\ (forall row col, 0 <= e_heatmap e1 row col) /\ get_images e1 = Ok (Some im)
  /\ mask_found (e_waveforms e) (e_mask e) (e_t_delta e) (e_config e) t y_zero y_ua centers (e_masked e) = Ok pr
  /\ pictures cast draw (e_waveforms e) (e_resolution e) (e_t_delta e) (e_config e) t y_zero y_ua centers m (e_heatmap e1) pr = Ok im
  /\ Forall2 (record_symbols t (e_t_delta e)) (combine (waves (e_waveforms e)) edges) syms
  /\ map (map snd) syms = map (fun yc => map (samples_of t0 (fst yc) w t) (snd yc)) (combine (map snd (waves (e_waveforms e))) centers).
Proof.
  intros C. destruct (whole _ _ _ _ _ _ _ _ _ _ _ _ _ _ C) as (l & centers & w & t0 & dirs & yz & ua & syms & T & FL & SA & W & T0 & ME & HM & CA & DI & RN & F & LS & PS & N & LC).
  pose proof C as (C1 & G & P & SP & D). destruct (calculate_inv _ _ _ _ _ _ _ _ d e m e1 C1) as (l' & eg & t' & h & dirs' & im & FL' & CK & SP' & PL & RS & M & H & IM & DI' & CE & IN & _ & CF).
  unfold get_clock_edges in G. rewrite CA, CE in G. injection G as ->. rewrite SP in SP'. injection SP' as <-. unfold find_levels, EyeReportProps.completed in *  . rewrite FL in FL'. injection FL' as <-.
  unfold results in RS. destruct (Reqb (e_t_delta e) 0); [discriminate|]. rewrite SA in RS. cbn [bind] in RS. rewrite ME in RS. cbn [bind] in RS. rewrite HM in RS. cbn [bind] in RS. apply bind_ok in RS. destruct RS as (pr & MF & RS). apply bind_ok in RS. destruct RS as (im' & PI & RS). injection RS as _ _ -> _.
  exists l, centers, w, t0, dirs, yz, ua, syms, im, pr. repeat (split; [assumption|]). split; [unfold get_raw_heatmap; rewrite CA; reflexivity|]. split; [eapply heat_positive; [|exact HM]; rewrite N; lia|]. split; [unfold get_images; rewrite CA, IM; reflexivity|]. repeat (split; [assumption|]). exact PS.
Qed.
Lemma drawn_inv res h el eu mc mg hs offs td t yz ua ws im : draw_images draw cast res h el eu mc mg hs offs td t yz ua ws = Ok im ->
  exists clean grid, clean_image draw res h = Ok clean /\ draw_grid res el eu = Ok grid /\ im_clean im = clean /\ im_grid im = rot90 res grid
  /\ match mc with
     | None => im_mask im = rot90 res blank /\ im_hits im = rot90 res blank /\ im_margin im = rot90 res blank
     | Some mc => exists paths x adjusted mask margin hit off, mask_paths mc = Ok paths /\ mg = Some x /\ mask_adjusted mc x = Ok adjusted /\ draw_paths draw res paths = Ok mask /\ draw_paths draw res adjusted = Ok margin
         /\ draw_hits draw res hs = Ok hit /\ draw_offenders draw cast res td t yz ua ws offs hit = Ok off /\ im_mask im = rot90 res mask /\ im_margin im = rot90 res margin /\ im_hits im = rot90 res off
     end.
Proof.
  unfold draw_images. intros E. apply bind_ok in E. destruct E as (cl & CL & E). apply bind_ok in E. destruct E as (g & GR & E). exists cl, g. destruct mc as [mc|].
  - apply bind_ok in E. destruct E as ([[a b] c] & MA & E). injection E as <-. apply bind_ok in MA. destruct MA as (paths & MP & MA). apply bind_ok in MA. destruct MA as (mask & DM & MA). apply bind_ok in MA. destruct MA as (x & MX & MA). destruct mg as [x'|]; [|discriminate]. injection MX as ->.
    apply bind_ok in MA. destruct MA as (adj & AD & MA). apply bind_ok in MA. destruct MA as (margin & DA & MA). apply bind_ok in MA. destruct MA as (hit & DH & MA). apply bind_ok in MA. destruct MA as (off & DO & MA). injection MA as <- <- <-. 
    repeat (split; [assumption || reflexivity|]). exists paths, x, adj, mask, margin, hit, off. repeat (split; [assumption || reflexivity|]). reflexivity.
  - cbn [bind] in E. injection E as <-. repeat (split; [assumption || reflexivity|]). reflexivity.
Qed.

(** ** Clean image and grid *)
Theorem C62_clean d e m e1 edges t : completed d e m e1 edges t ->
  exists im h, get_images e1 = Ok (Some im) /\ get_raw_heatmap e1 = Ok h /\ forall row col, in_image (e_resolution e) row col -> 0 <= h row col
    /\ (h row col = 0 -> im_clean im row col = [0; 0; 0; 0])
    /\ (h row col <> 0 -> exists top, peak (e_resolution e) h top /\ 0 < h row col / top <= 1 /\ im_clean im row col = jet draw (h row col / top)).
Proof.
  intros C. destruct (pictured _ _ _ _ _ _ C) as (l & centers & w & t0 & dirs & yz & ua & syms & im & [[mc offs] hs] & T & FL & SA & W & T0 & ME & HM & HP & IM & MF & PI & F & PS).
  unfold pictures in PI. destruct (drawn_inv _ _ _ _ _ _ _ _ _ _ _ _ _ _ PI) as (cl & g & CL & GR & EC & EG & _). exists im, (e_heatmap e1). split; [exact IM|]. split; [exact HM|]. intros row col I. split; [apply HP|]. rewrite EC. exact (clean_spec draw _ _ _ CL (fun r c _ => HP r c) row col I).
Qed.
Theorem C62_grid d e m e1 edges t : completed d e m e1 edges t ->
  exists im, get_images e1 = Ok (Some im) /\ forall row col, in_image (e_resolution e) row col ->
    let on := on_grid (c_edge_lower (e_config e)) (c_edge_upper (e_config e)) (e_resolution e) row col in
    (on -> im_grid im row col = [1; 1; 0; 1]) /\ (~ on -> im_grid im row col = [1; 1; 0; 0]).
Proof.
  intros C. destruct (pictured _ _ _ _ _ _ C) as (l & centers & w & t0 & dirs & yz & ua & syms & im & [[mc offs] hs] & T & FL & SA & W & T0 & ME & HM & HP & IM & MF & PI & F & PS).
  unfold pictures in PI. destruct (drawn_inv _ _ _ _ _ _ _ _ _ _ _ _ _ _ PI) as (cl & g & CL & GR & EC & EG & _). exists im. split; [exact IM|]. intros row col (I1 & I2). cbv zeta. rewrite EG. unfold rot90. rewrite <- strokes_lines. apply (grid_spec _ _ _ _ GR); [exact I2|lia].
Qed.

(** ** Mask *)
Theorem C62_no_mask d e m e1 edges t : completed d e m e1 edges t -> e_mask e = None \/ c_skip_measures (e_config e) = true ->
  exists im, get_images e1 = Ok (Some im) /\ forall row col, im_mask im row col = [0; 0; 0; 0] /\ im_hits im row col = [0; 0; 0; 0] /\ im_margin im row col = [0; 0; 0; 0].
Proof.
  intros C NM. destruct (pictured _ _ _ _ _ _ C) as (l & centers & w & t0 & dirs & yz & ua & syms & im & [[mc offs] hs] & T & FL & SA & W & T0 & ME & HM & HP & IM & MF & PI & F & PS).
  exists im. split; [exact IM|]. apply (measured_margin percentile _ _ _ _ _ _ _ _ _ _ _ ME) in NM. destruct (pictures_unmasked _ _ _ _ _ _ _ _ _ _ _ _ _ _ _ _ NM PI) as (-> & _).
  unfold pictures in PI. destruct (drawn_inv _ _ _ _ _ _ _ _ _ _ _ _ _ _ PI) as (cl & g & _ & _ & _ & _ & E1 & E2 & E3). intros row col. rewrite E1, E2, E3. repeat split; reflexivity.
Qed.
Lemma masked_inv d e m e1 edges t mk : completed d e m e1 edges t -> e_mask e = Some mk -> c_skip_measures (e_config e) = false ->
  exists l centers w t0 low amp syms im mc paths x adjusted offs hs bad hit off,
  0 < t /\ find_levels (e_config e) (all_samples (e_waveforms e)) d = Ok l /\ sample_all t (e_t_delta e) edges (waves (e_waveforms e)) = Ok centers
  /\ get_i_width int_of_float t (e_t_delta e) = Ok w /\ window_axis w t (e_t_delta e) = Ok t0
  /\ drawn_levels (e_config e) l m low amp /\ get_images e1 = Ok (Some im)
  /\ mask_convert mk amp t = Ok mc /\ eye_sample_mask int_of_float (Some mk) (e_t_delta e) t low amp (combine (map snd (waves (e_waveforms e))) centers) = Ok (offs, hs, x, bad)
  /\ mask_paths mc = Ok paths /\ mask_margin m = Some x /\ n_sym_bad m = Some bad /\ mask_adjusted mc x = Ok adjusted
  /\ (exists mask margin, draw_paths draw (e_resolution e) paths = Ok mask /\ draw_paths draw (e_resolution e) adjusted = Ok margin /\ im_mask im = rot90 (e_resolution e) mask /\ im_margin im = rot90 (e_resolution e) margin)
  /\ draw_hits draw (e_resolution e) hs = Ok hit /\ draw_offenders draw cast (e_resolution e) (e_t_delta e) t low amp (combine (map snd (waves (e_waveforms e))) centers) offs hit = Ok off /\ im_hits im = rot90 (e_resolution e) off
  /\ Forall2 (record_symbols t (e_t_delta e)) (combine (waves (e_waveforms e)) edges) syms
  /\ map (map snd) syms = map (fun yc => map (samples_of t0 (fst yc) w t) (snd yc)) (combine (map snd (waves (e_waveforms e))) centers).
Proof.
  intros C MK SK. destruct (pictured _ _ _ _ _ _ C) as (l & centers & w & t0 & dirs & yz & ua & syms & im & [[mc' offs'] hs'] & T & FL & SA & W & T0 & ME & HM & HP & IM & MF & PI & F & PS).
  pose proof (drawn _ _ _ percentile _ _ _ _ _ _ _ _ _ FL ME) as DL. unfold mask_found in MF. rewrite MK, SK in MF. apply bind_ok in MF. destruct MF as (mc & MC & MF). apply bind_ok in MF. destruct MF as ([[[offs hs] mg] bad] & SM & MF). injection MF as <- <- <-.
  unfold pictures in PI. destruct (drawn_inv _ _ _ _ _ _ _ _ _ _ _ _ _ _ PI) as (cl & g & _ & _ & _ & _ & paths & x & adj & mask & margin & hit & off & MP & MX & AD & DM & DA & DH & DO & E1 & E2 & E3).
  destruct (measured_inv percentile _ _ _ _ _ _ _ _ _ _ _ SK ME) as (vs & m0 & am & yc & offs2 & hs2 & mg2 & bad2 & _ & _ & _ & _ & _ & _ & _ & _ & SM2 & MM & NB & _). rewrite MK in SM2, MM, NB. rewrite SM in SM2. injection SM2 as <- <- <- <-. rewrite MX in MM. injection MM as ->.
  exists l, centers, w, t0, yz, ua, syms, im, mc, paths, mg, adj, offs, hs, bad, hit, off. repeat (split; [assumption|]). split; [exists mask, margin; repeat (split; [assumption|]); assumption|]. repeat (split; [assumption|]). exact PS.
Qed.
Theorem C62_mask d e m e1 edges t mk : completed d e m e1 edges t -> e_mask e = Some mk -> c_skip_measures (e_config e) = false ->
  exists im l low amp mc paths margin adjusted, get_images e1 = Ok (Some im) /\ find_levels (e_config e) (all_samples (e_waveforms e)) d = Ok l
    /\ drawn_levels (e_config e) l m low amp /\ mask_convert mk amp t = Ok mc /\ mask_paths mc = Ok paths
    /\ mask_margin m = Some margin /\ mask_adjusted mc margin = Ok adjusted
    /\ forall row col,
      (in_areas (polygon draw) (e_resolution e) paths row col -> im_mask im row col = [1; 0; 1; 1 / 2])
      /\ (~ in_areas (polygon draw) (e_resolution e) paths row col -> im_mask im row col = [0; 0; 0; 0])
      /\ (in_areas (polygon draw) (e_resolution e) adjusted row col -> im_margin im row col = [1; 0; 1; 1 / 2])
      /\ (~ in_areas (polygon draw) (e_resolution e) adjusted row col -> im_margin im row col = [0; 0; 0; 0]).
Proof.
  intros C MK SK. destruct (masked_inv _ _ _ _ _ _ _ C MK SK) as (l & centers & w & t0 & low & amp & syms & im & mc & paths & x & adj & offs & hs & bad & hit & off & T & FL & SA & W & T0 & DL & IM & MC & SM & MP & MM & NB & AD & (mask & margin & DM & DA & E1 & E2) & _).
  exists im, l, low, amp, mc, paths, x, adj. repeat (split; [assumption|]). intros row col.
  destruct (paths_spec draw (e_resolution e) paths) as (i1 & D1 & P1). rewrite D1 in DM. injection DM as ->. destruct (paths_spec draw (e_resolution e) adj) as (i2 & D2 & P2). rewrite D2 in DA. injection DA as ->.
  rewrite E1, E2. unfold rot90. destruct (P1 row col) as (A & B). destruct (P2 row col) as (A' & B'). repeat split; assumption.
Qed.

(** ** Hits *)
Lemma mask_paths_ne (mc : mask R) paths : mask_paths mc = Ok paths -> Forall (fun p => p <> []) paths.
Proof.
  destruct mc as [m|m]; cbn [mask_paths]; [unfold hex_get_paths, get_paths; destruct (hconv m)|unfold dec_get_paths, get_paths; destruct (dconv m)]; intros E; try discriminate; injection E as <-; repeat constructor; discriminate.
Qed.
Lemma normalised (y : list R) low amp : normalise_y y low amp = map (fun v => (v - low) / amp) y.
Proof. reflexivity. Qed.
Lemma hits_meet t td w t0 low amp y (s : R * Z) zero h : 0 < t -> 0 < td -> get_i_width int_of_float t td = Ok w -> window_axis w t td = Ok t0 -> fitting w y s -> Forall (fun p : list (R * R) => p <> []) zero ->
  hits (fst (window_fb t0 (normalise_y y low amp) w t s)) (snd (window_fb t0 (normalise_y y low amp) w t s)) zero = Ok h ->
  forall p, In p h <-> meets low amp zero (samples_of t0 y w t s) p.
Proof.
  intros T D W T0 FI NE E p. destruct (i_width_R _ _ _ T D W) as (W2 & _). assert (FI' : (0 <= snd s - w /\ snd s + w < Z.of_nat (length (normalise_y y low amp)))%Z) by (rewrite normalised, map_length; exact FI).
  pose proof (window_hits w t td t0 (normalise_y y low amp) s zero ltac:(lia) T D T0 FI' NE) as WH. cbv zeta in WH. rewrite WH in E. injection E as <-. rewrite all_pairs_in. unfold meets.
  change (map (fun s0 : R * R => (fst s0, (snd s0 - low) / amp)) (samples_of t0 y w t s)) with (scaled low amp (samples_of t0 y w t s)). rewrite <- samples_scaled, <- normalised. reflexivity.
Qed.
Lemma symbols_match (syms : list (list (R * list (R * R)))) (f : list R * list (R * Z) -> R * Z -> list (R * R)) ws : map (map snd) syms = map (fun yc => map (f yc) (snd yc)) ws ->
  length syms = length ws
  /\ (forall j k wv s, nth_error ws j = Some wv -> nth_error (snd wv) k = Some s -> exists sy q, nth_error syms j = Some sy /\ nth_error sy k = Some q /\ snd q = f wv s)
  /\ (forall j k sy q, nth_error syms j = Some sy -> nth_error sy k = Some q -> exists wv s, nth_error ws j = Some wv /\ nth_error (snd wv) k = Some s /\ snd q = f wv s).
Proof.
  intros E. split; [rewrite <- (map_length (map snd) syms), E, map_length; reflexivity|].
  assert (N : forall j, option_map (map snd) (nth_error syms j) = option_map (fun yc => map (f yc) (snd yc)) (nth_error ws j)) by (intros j; rewrite <- !nth_error_map, E; reflexivity). split; intros j k a b A B; specialize (N j); rewrite A in N; cbn [option_map] in N.
  - destruct (nth_error syms j) as [sy|] eqn:S; [|discriminate]. injection N as N. exists sy. assert (K : option_map snd (nth_error sy k) = option_map (f a) (nth_error (snd a) k)) by (rewrite <- !nth_error_map; f_equal; exact N). rewrite B in K. destruct (nth_error sy k) as [q|]; [|discriminate]. injection K as K. exists q. repeat split. exact K.
  - destruct (nth_error ws j) as [wv|] eqn:S; [|discriminate]. injection N as N. exists wv. assert (K : option_map snd (nth_error a k) = option_map (f wv) (nth_error (snd wv) k)) by (rewrite <- !nth_error_map; f_equal; exact N). rewrite B in K. destruct (nth_error (snd wv) k) as [s|]; [|discriminate]. injection K as K. exists s. repeat split. exact K.
Qed.
Lemma Forall2_at {X Y} (P : X -> Y -> Prop) a b : Forall2 P a b -> (forall x, In x a -> exists y, In y b /\ P x y) /\ (forall y, In y b -> exists x, In x a /\ P x y).
Proof.
  induction 1 as [|x y a b H F (I1 & I2)]; [split; intros ? []|]. split; intros z [<-|I]; [exists y; split; [left; reflexivity|exact H]| |exists x; split; [left; reflexivity|exact H]|].
  - destruct (I1 z I) as (y' & J & Q). exists y'. split; [right; exact J|exact Q].
  - destruct (I2 z I) as (x' & J & Q). exists x'. split; [right; exact J|exact Q].
Qed.
Theorem C62_hits d e m e1 edges t mk : completed d e m e1 edges t -> e_mask e = Some mk -> c_skip_measures (e_config e) = false -> fair (line_aa draw) ->
  exists im l low amp mc paths syms offs, get_images e1 = Ok (Some im) /\ find_levels (e_config e) (all_samples (e_waveforms e)) d = Ok l
    /\ drawn_levels (e_config e) l m low amp /\ mask_convert mk amp t = Ok mc /\ mask_paths mc = Ok paths
    /\ Forall2 (record_symbols t (e_t_delta e)) (combine (waves (e_waveforms e)) edges) syms
    /\ length offs = length syms /\ n_sym_bad m = Some (length (concat offs))
    /\ Forall (StronglySorted lt) offs
    /\ (forall j o k, nth_error offs j = Some o -> In k o -> exists sy s p, nth_error syms j = Some sy /\ nth_error sy k = Some s /\ meets low amp paths (snd s) p)
    /\ forall row col, in_image (e_resolution e) row col ->
       red (exists j o k sy s, nth_error offs j = Some o /\ nth_error syms j = Some sy /\ nth_error sy k = Some s
              /\ (In k o /\ (exists p, meets low amp paths (snd s) p /\ circled (circle draw) (e_resolution e) p row col)
                  \/ In k (firstn 2 o) /\ on_trace cast (line_aa draw) (e_resolution e) low amp (snd s) row col))
         (im_hits im row col).
Proof.
  intros C MK SK FA. pose proof C as (_ & _ & _ & _ & D). destruct (masked_inv _ _ _ _ _ _ _ C MK SK) as (l & centers & w & t0 & low & amp & syms & im & mc & paths & x & adj & offs & hs & bad & hit & off & T & FL & SA & W & T0 & DL & IM & MC & SM & MP & MM & NB & AD & _ & DH & DO & E3 & F & PS).
  set (ws := combine (map snd (waves (e_waveforms e))) centers) in *  . destruct (eye_found _ _ _ _ _ _ _ _ _ _ _ _ _ _ W T0 MC MP SM) as (BC & hls & L1 & L2 & HS & FO). change (length ws = length offs) in L1. change (length ws = length hls) in L2. destruct (symbols_match _ _ _ PS) as (LS & M1 & M2). pose proof (mask_paths_ne _ _ MP) as NE.
  assert (FI : forall j wv k s, nth_error ws j = Some wv -> nth_error (snd wv) k = Some s -> fitting w (fst wv) s) by (intros j wv k s A B; exact (all_inside t (e_t_delta e) edges (waves (e_waveforms e)) centers w SA (waves_length (e_waveforms e)) W wv s (nth_error_In _ _ A) (nth_error_In _ _ B))).
  assert (IDX : forall j wv o hl k h, nth_error ws j = Some wv -> nth_error offs j = Some o -> nth_error hls j = Some hl -> offending t0 (normalise_y (fst wv) low amp) w t paths (snd wv) k h ->
    exists s, nth_error (snd wv) k = Some s /\ h <> [] /\ forall p, In p h <-> meets low amp paths (samples_of t0 (fst wv) w t s) p).
  { intros j wv o hl k h N1 N2 N3 (s & NS & HT & HN). exists s. split; [exact NS|]. split; [exact HN|]. exact (hits_meet _ _ _ _ _ _ _ _ _ _ T D W T0 (FI _ _ _ _ N1 NS) NE HT). }
  assert (AT : forall j o, nth_error offs j = Some o -> exists wv hl, nth_error ws j = Some wv /\ nth_error hls j = Some hl).
  { intros j o N. assert (J : (j < length offs)%nat) by (apply nth_error_Some; congruence). destruct (nth_error ws j) as [wv|] eqn:A; [|exfalso; revert A; apply nth_error_Some; rewrite L1; exact J]. destruct (nth_error hls j) as [hl|] eqn:B; [|exfalso; revert B; apply nth_error_Some; rewrite <- L2, L1; exact J]. exists wv, hl. split; reflexivity. }
  assert (OFF : forall j o k, nth_error offs j = Some o -> In k o -> exists wv s, nth_error ws j = Some wv /\ nth_error (snd wv) k = Some s /\ exists p, meets low amp paths (samples_of t0 (fst wv) w t s) p).
  { intros j o k N I. destruct (AT j o N) as (wv & hl & N1 & N3). destruct (proj1 (Forall2_at _ _ _ (proj1 (FO j wv o hl N1 N N3))) k I) as (h & IH & OF). destruct (IDX j wv o hl k h N1 N N3 OF) as (s & NS & HN & HM). exists wv, s. repeat (split; [assumption|]). destruct h as [|p h]; [congruence|]. exists p. apply HM. left. reflexivity. }
  exists im, l, low, amp, mc, paths, syms, offs. repeat (split; [assumption|]). split; [rewrite LS; exact (eq_sym L1)|]. split; [rewrite <- BC; exact NB|]. split; [apply Forall_forall; intros o OI; apply In_nth_error in OI; destruct OI as (j & N); destruct (AT j o N) as (wv & hl & N1 & N3); exact (proj2 (FO j wv o hl N1 N N3))|]. split.
  - intros j o k N I. destruct (OFF j o k N I) as (wv & s & N1 & NS & p & ME). destruct (M1 j k wv s N1 NS) as (sy & q & A & B & E). exists sy, q, p. rewrite E. repeat split; assumption.
  - intros row col I. rewrite E3. unfold rot90. destruct (hits_spec draw (e_resolution e) hs) as (hit' & DH' & HI). rewrite DH' in DH. injection DH as ->. pose proof I as (I1 & I2). assert (RO : (0 <= e_resolution e - 1 - row < e_resolution e)%Z) by lia.
    destruct (HI col (e_resolution e - 1 - row)%Z I2 RO) as (a & EA & AA & AV). replace (e_resolution e - 1 - (e_resolution e - 1 - row))%Z with row in AV by lia.
    assert (R0 : red (exists h, In h hs /\ circled (circle draw) (e_resolution e) h row col) (hit col (e_resolution e - 1 - row)%Z)). { rewrite EA. split; [reflexivity|]. cbn [nth firstn]. split; [destruct AA as [-> | ->]; lra|]. split; [|reflexivity]. rewrite <- AV. destruct AA as [-> | ->]; split; lra. }
    destruct (offenders_spec draw cast (e_t_delta e) t low amp (e_resolution e) w t0 FA W T0 ws offs col (e_resolution e - 1 - row)%Z hit (exists h, In h hs /\ circled (circle draw) (e_resolution e) h row col) I2 RO L1) with (2 := R0) as (off' & DO' & RE).
    { intros j wv o i N1 N2 J. assert (In i o) as J' by (rewrite <- (firstn_skipn 2 o); apply in_or_app; left; exact J). destruct (OFF j o i N2 J') as (wv' & s & N1' & NS & _). assert (wv' = wv) by congruence. subst wv'. exists s. split; [exact NS|exact (FI _ _ _ _ N1 NS)]. }
    rewrite DO in DO'. injection DO' as <-. eapply red_iff; [|exact RE]. 
    assert (TR : forall (wv : list R * list (R * Z)) s, traced draw (pixels_of cast t low amp (e_resolution e) w t0 (fst wv) s) (e_resolution e) col (e_resolution e - 1 - row) <-> on_trace cast (line_aa draw) (e_resolution e) low amp (samples_of t0 (fst wv) w t s) row col) by (intros wv s; unfold pixels_of; rewrite (symbol_pixels_view cast); reflexivity).
    split.
    + intros [(h & J & CI)|(j & wv & o & k & s & N1 & N2 & J & NS & TC)].
      * rewrite HS in J. apply in_concat in J. destruct J as (h1 & J1 & J). apply in_concat in J1. destruct J1 as (hl & J2 & J1). apply In_nth_error in J2. destruct J2 as (j & N3).
        assert (JL : (j < length hls)%nat) by (apply nth_error_Some; congruence). destruct (nth_error offs j) as [o|] eqn:N2; [|exfalso; revert N2; apply nth_error_Some; rewrite <- L1, L2; exact JL]. destruct (nth_error ws j) as [wv|] eqn:N1; [|exfalso; revert N1; apply nth_error_Some; rewrite L2; exact JL].
        destruct (proj2 (Forall2_at _ _ _ (proj1 (FO j wv o hl N1 N2 N3))) h1 J1) as (k & KI & OF). destruct (IDX j wv o hl k h1 N1 N2 N3 OF) as (s & NS & HN & HM). destruct (M1 j k wv s N1 NS) as (sy & q & A & B & E).
        exists j, o, k, sy, q. repeat (split; [assumption|]). left. split; [exact KI|]. exists h. rewrite E. split; [apply HM; exact J|exact CI].
      * destruct (M1 j k wv s N1 NS) as (sy & q & A & B & E). exists j, o, k, sy, q. repeat (split; [assumption|]). right. split; [exact J|]. rewrite E. apply TR. exact TC.
    + intros (j & o & k & sy & q & N2 & A & B & Q). destruct (M2 j k sy q A B) as (wv & s & N1 & NS & E). rewrite E in Q. destruct Q as [(KI & p & ME & CI)|(J & TC)].
      * left. exists p. split; [|exact CI]. destruct (AT j o N2) as (wv' & hl & N1' & N3). assert (wv' = wv) by congruence. subst wv'. destruct (proj1 (Forall2_at _ _ _ (proj1 (FO j wv o hl N1 N2 N3))) k KI) as (h & IH & OF). destruct (IDX j wv o hl k h N1 N2 N3 OF) as (s' & NS' & HN & HM). assert (s' = s) by congruence. subst s'.
        rewrite HS. apply in_concat. exists h. split; [apply in_concat; exists hl; split; [exact (nth_error_In _ _ N3)|exact IH]|apply HM; exact ME].
      * right. exists j, wv, o, k, s. repeat (split; [assumption|]). apply TR. exact TC.
Qed.
(** No bad symbol, nothing to see. *)
Theorem C62_no_hits d e m e1 edges t mk : completed d e m e1 edges t -> e_mask e = Some mk -> c_skip_measures (e_config e) = false -> fair (line_aa draw) -> n_sym_bad m = Some 0%nat ->
  exists im, get_images e1 = Ok (Some im) /\ forall row col, in_image (e_resolution e) row col -> nth 3 (im_hits im row col) 0 = 0.
Proof.
  intros C MK SK FA B0. destruct (C62_hits _ _ _ _ _ _ _ C MK SK FA) as (im & l & low & amp & mc & paths & syms & offs & IM & _ & _ & _ & _ & _ & LO & NB & _ & _ & RE). exists im. split; [exact IM|]. intros row col I. destruct (RE row col I) as (_ & A & V & _).
  destruct (Rlt_le_dec 0 (nth 3 (im_hits im row col) 0)) as [P|P]; [|lra]. apply V in P. destruct P as (j & o & k & sy & s & N & _ & _ & Q). exfalso. rewrite B0 in NB. injection NB as NB. apply eq_sym, length_zero_iff_nil in NB.
  assert (K : In k o) by (destruct Q as [(K & _)|(K & _)]; [exact K|rewrite <- (firstn_skipn 2 o); apply in_or_app; left; exact K]). assert (IC : In k (concat offs)) by (apply in_concat; exists o; split; [exact (nth_error_In _ _ N)|exact K]). rewrite NB in IC. destruct IC.
Qed.

(** ** Recalculating without measures
    A mask found earlier is drawn again, but the margin it is drawn with is then
    not known: the calculation raises. *)
Theorem C62_stale_mask_refuted d e m e1 edges t mk : completed d e m e1 edges t -> e_mask e = Some mk -> c_skip_measures (e_config e) = false ->
  forall c, c_skip_measures c = true -> forall d' m' e2, calculate d' (set_config c e1) <> (Ok m', e2).
Proof.
  intros C MK SK c SC d' m' e2 E. pose proof C as (C1 & _). destruct (calculate_inv _ _ _ _ _ _ _ _ d e m e1 C1) as (l & eg & t' & h & dirs & im & FL & CK & SP & PL & RS & _).
  destruct (calculate_inv _ _ _ _ _ _ _ _ d' _ m' e2 E) as (l2 & eg2 & t2 & h2 & dirs2 & im2 & _ & _ & _ & _ & RS2 & _).
  assert (MA : exists mc offs hs, e_masked e1 = (Some mc, offs, hs)).
  { unfold results in RS. destruct (Reqb (e_t_delta e) 0); [discriminate|]. apply bind_ok in RS. destruct RS as (ce & _ & RS). apply bind_ok in RS. destruct RS as ([[[m0 di] yz] ua] & _ & RS). apply bind_ok in RS. destruct RS as (h0 & _ & RS). apply bind_ok in RS. destruct RS as (pr & MF & RS). apply bind_ok in RS. destruct RS as (im0 & _ & RS). injection RS as _ _ _ _ <-.
    unfold mask_found in MF. rewrite MK, SK in MF. apply bind_ok in MF. destruct MF as (mc & MC & MF). apply bind_ok in MF. destruct MF as ([[[offs hs] mg] bad] & SM & MF). injection MF as <-. exists mc, offs, hs. reflexivity. }
  destruct MA as (mc & offs & hs & MA). change (e_masked (set_config c e1)) with (e_masked e1) in RS2. change (e_config (set_config c e1)) with c in RS2. rewrite MA in RS2. exact (results_stale _ _ _ _ _ _ _ _ _ _ _ _ _ _ _ _ SC RS2).
Qed.

(** ** Calculations with a mask finish *)
Definition adjustable (mc : mask R) : Prop := forall f, -1 <= f <= 1 -> exists p, mask_adjusted mc f = Ok p.
Lemma margins_range f : In f (margins (A := R)) -> -1 <= f <= 1.
Proof. intros I. apply In_nth_error in I. destruct I as (k & N). assert (K : (k < 2001)%nat) by (rewrite <- margins_length; apply nth_error_Some; congruence). rewrite margins_nth in N by exact K. assert (EF : IZR (1000 - Z.of_nat k) / 1000 = f) by congruence. rewrite <- EF. assert (IZR (-1000) <= IZR (1000 - Z.of_nat k) <= IZR 1000) by (split; apply IZR_le; lia). split; lra. Qed.
Lemma mapM_total {X Y} (f : X -> result Y) l : (forall x, In x l -> exists y, f x = Ok y) -> exists ys, mapM f l = Ok ys /\ length ys = length l.
Proof.
  induction l as [|x l IH]; intros F; [exists []; split; reflexivity|]. destruct (F x (or_introl eq_refl)) as (y & E). destruct IH as (ys & M & L); [intros z I; apply F; right; exact I|]. exists (y :: ys). cbn [mapM]. rewrite E. cbn [bind]. rewrite M. cbn [bind length]. split; [reflexivity|lia].
Qed.
Lemma sample_mask_total (td t yz ua : R) y syms (paths : list (list (@path R))) w t0 : 0 < t -> 0 < td -> get_i_width int_of_float t td = Ok w -> window_axis w t td = Ok t0 -> (forall s, In s syms -> fitting w y s) ->
  length paths = 2001%nat -> (forall p, In p paths -> Forall (fun x : list (R * R) => x <> []) p) ->
  exists o, sample_mask int_of_float y syms td t yz ua paths margins = Ok o /\ In (margin o) margins.
Proof.
  intros T D W T0 FI LP NE. destruct (i_width_R _ _ _ T D W) as (W2 & _). unfold sample_mask. rewrite W. cbn [bind]. rewrite T0. cbn [bind]. rewrite margins_length.
  match goal with |- context [foldM ?f ?st0 ?l] => assert (FO : exists st, foldM f st0 l = Ok st); [apply EyeRunPeriod.foldM_in|destruct FO as ([[[i im] offs] hs] & ->)] end.
  - intros [[[i im] offs] hs] s I. unfold mask_step at 1. destruct (window_fb t0 (normalise_y y yz ua) w t s) as [wt wy] eqn:WE.
    assert (HI : forall p, In p paths -> exists h, hits wt wy p = Ok h). { intros p J. assert (FI' : (0 <= snd s - w /\ snd s + w < Z.of_nat (length (normalise_y y yz ua)))%Z) by (rewrite normalised, map_length; exact (FI s I)). pose proof (window_hits w t td t0 (normalise_y y yz ua) s p ltac:(lia) T D T0 FI' (NE p J)) as WH. cbv zeta in WH. rewrite WE in WH. eexists. exact WH. }
    assert (GE : forall k, (k < 2001)%nat -> exists p, get paths k = Ok p /\ In p paths). { intros k K. unfold get. destruct (nth_error paths k) as [p|] eqn:N; [|apply nth_error_None in N; lia]. exists p. split; [reflexivity|exact (nth_error_In _ _ N)]. }
    match goal with |- context [margin_loop ?fu ?hf ?n ?i0] => assert (ML : exists j, margin_loop fu hf n i0 = Ok j); [destruct (margin_loop_spec hf (fun k => match hf k with Ok b => b | Err _ => false end) n) with (fuel := fu) (i := i0) as (j & Ej & _); [|lia|exists j; exact Ej]|destruct ML as (j & ->)] end.
    + intros k K. cbv beta. destruct (GE k K) as (p & -> & J). cbn [bind]. destruct (HI p J) as (h & HH). unfold is_hitting_np. rewrite (is_hitting_touches _ _ _ _ HH). reflexivity.
    + cbn [bind]. destruct (j <? 2001 / 2)%nat; [eexists; reflexivity|]. destruct (GE (2001 / 2)%nat) as (p & -> & J); [apply Nat.ltb_lt; vm_compute; reflexivity|]. cbn [bind]. destruct (HI p J) as (h & HH). unfold hits_np. rewrite HH. cbn [bind]. destruct h; eexists; reflexivity.
  - cbn [bind]. assert (G : exists m, getz (margins (A := R)) (Z.min (Z.of_nat 2001 - 1) (Z.of_nat im)) = Ok m /\ In m margins).
    { unfold getz. destruct (0 <=? Z.min (Z.of_nat 2001 - 1) (Z.of_nat im))%Z eqn:Q; [|apply Z.leb_gt in Q; lia]. unfold get. destruct (nth_error (margins (A := R)) _) as [f|] eqn:N; [exists f; split; [reflexivity|exact (nth_error_In _ _ N)]|]. apply nth_error_None in N. rewrite margins_length in N. lia. }
    destruct G as (m & -> & IM). cbn [bind]. eexists. split; [reflexivity|exact IM].
Qed.
Lemma mask_total mk mc (td t yz ua : R) ws w t0 : 0 < t -> 0 < td -> get_i_width int_of_float t td = Ok w -> window_axis w t td = Ok t0 -> (forall wv s, In wv ws -> In s (snd wv) -> fitting w (fst wv) s) ->
  mask_convert mk ua t = Ok mc -> adjustable mc -> exists offs hs mg cnt, eye_sample_mask int_of_float (Some mk) td t yz ua ws = Ok (offs, hs, mg, cnt) /\ -1 <= mg <= 1.
Proof.
  intros T D W T0 FI MC AD. unfold eye_sample_mask. rewrite MC. cbn [bind]. destruct (mapM_total (mask_adjusted mc) margins) as (paths & MP & LP); [intros f I; apply AD, margins_range, I|]. rewrite MP. cbn [bind]. rewrite margins_length in LP.
  assert (NE : forall p, In p paths -> Forall (fun x : list (R * R) => x <> []) p) by (intros p J; destruct (mapM_in _ _ _ _ MP J) as (f & _ & Ef); exact (adjusted_nonempty _ _ _ Ef)).
  match goal with |- context [foldM ?f _ ws] => assert (G : forall l offs hs mg cnt, (forall wv s, In wv l -> In s (snd wv) -> fitting w (fst wv) s) -> -1 <= mg <= 1 -> exists offs' hs' mg' cnt', foldM f (offs, hs, mg, cnt) l = Ok (offs', hs', mg', cnt') /\ -1 <= mg' <= 1) end.
  { clear ws FI. induction l as [|wv l IH]; intros offs hs mg cnt FI M1; [exists offs, hs, mg, cnt; split; [reflexivity|exact M1]|].
    cbn [foldM]. destruct (sample_mask_total td t yz ua (fst wv) (snd wv) paths w t0 T D W T0) as (o & SM & IO); [intros s I; exact (FI wv s (or_introl eq_refl) I)|exact LP|exact NE|]. match goal with |- context [sample_mask ?a ?b ?c ?d ?e ?f ?g ?h ?i] => assert (SM' : sample_mask a b c d e f g h i = Ok o) by exact SM; rewrite SM' end. cbn [bind].
    apply IH; [intros a b I J; exact (FI a b (or_intror I) J)|]. pose proof (margins_range _ IO). destruct (_ <. _)%num; assumption. }
  apply G; [exact FI|]. cbn [nofZ NumR]. lra.
Qed.
Lemma masked_images_ok res h el eu mc mk mg hs offs cnt td t yz ua ws w t0 : (1 <= res)%Z -> - (1 / 2) <= el < 3 / 2 -> - (1 / 2) <= eu < 3 / 2 -> 0 < t -> 0 < td ->
  get_i_width int_of_float t td = Ok w -> window_axis w t td = Ok t0 -> (forall wv s, In wv ws -> In s (snd wv) -> fitting w (fst wv) s) ->
  fair (line_aa draw) -> mask_convert mk ua t = Ok mc -> adjustable mc -> eye_sample_mask int_of_float (Some mk) td t yz ua ws = Ok (offs, hs, mg, cnt) -> -1 <= mg <= 1 ->
  exists im, draw_images draw cast res h el eu (Some mc) (Some mg) hs offs td t yz ua ws = Ok im.
Proof.
  intros RP EL EU T D W T0 FI FA MC AD SM MR. unfold draw_images, clean_image. destruct (Z.eqb_spec res 0); [lia|]. cbn [bind]. destruct (EyeRunPeriod.grid_ok res el eu RP EL EU) as (g & ->). cbn [bind].
  destruct (AD 0 ltac:(lra)) as (p0 & A0). assert (MP : exists paths, mask_paths mc = Ok paths). { destruct MaskProps.C36_zero_is_identity as (Z1 & Z2). destruct mc as [m|m]; cbn [mask_adjusted mask_paths] in A0 |- * ; [destruct (Z1 m) as (m' & E1 & E2)|destruct (Z2 m) as (m' & E1 & E2)]; rewrite E1 in A0; cbn [bind] in A0; exists p0; rewrite <- E2; exact A0. }
  destruct MP as (paths & MP). rewrite MP. cbn [bind]. destruct (paths_spec draw res paths) as (i1 & -> & _). cbn [bind]. destruct (AD mg MR) as (adj & ->). cbn [bind]. destruct (paths_spec draw res adj) as (i2 & -> & _). cbn [bind]. destruct (hits_spec draw res hs) as (hit & -> & HI). cbn [bind].
  destruct (eye_found _ _ _ _ _ _ _ _ _ _ _ _ _ _ W T0 MC MP SM) as (_ & hls & L1 & L2 & HS & FO).
  destruct (HI 0%Z 0%Z) as (a & EA & AA & _); [lia..|]. 
  destruct (offenders_spec draw cast td t yz ua res w t0 FA W T0 ws offs 0%Z 0%Z hit (0 < a) ltac:(lia) ltac:(lia) L1) as (off & -> & _).
  - intros j wv o i N1 N2 J. assert (J' : In i o) by (rewrite <- (firstn_skipn 2 o); apply in_or_app; left; exact J). destruct (nth_error hls j) as [hl|] eqn:N3; [|exfalso; revert N3; apply nth_error_Some; rewrite <- L2; apply nth_error_Some; intros NN; exact (eq_ind None (fun z => match z with None => True | Some _ => False end) I (Some wv) (eq_trans (eq_sym NN) N1))].
    destruct (proj1 (Forall2_at _ _ _ (proj1 (FO j wv o hl N1 N2 N3))) i J') as (hh & _ & (s & NS & _)). exists s. split; [exact NS|exact (FI _ _ (nth_error_In _ _ N1) (nth_error_In _ _ NS))].
  - rewrite EA. split; [reflexivity|]. cbn [nth firstn]. split; [destruct AA as [-> | ->]; lra|]. split; [tauto|reflexivity].
  - cbn [bind]. eexists. reflexivity.
Qed.
(** As C58_finishes, with a mask that can be converted and adjusted. *)
Theorem C62_finishes e l edges t mk : find_levels (e_config e) (all_samples (e_waveforms e)) false = Ok l ->
  e_clock_edges e = Some edges -> symbol_period edges = Ok (Some t) -> (forall p, is_period edges p -> 0 < p) -> 0 < e_t_delta e ->
  (length (waves (e_waveforms e)) <= length edges)%nat -> (forall w, In w (waves (e_waveforms e)) -> fst w <> []) ->
  e_mask e = Some mk -> fair (line_aa draw) -> (1 <= e_resolution e)%Z -> c_point_cloud (e_config e) = true -> c_skip_measures (e_config e) = false ->
  - (1 / 2) <= c_edge_lower (e_config e) < 3 / 2 -> - (1 / 2) <= c_edge_upper (e_config e) < 3 / 2 -> width e t < 1 ->
  exists syms pds, Forall2 (record_symbols t (e_t_delta e)) (combine (waves (e_waveforms e)) edges) syms /\ map (map fst) pds = map (map snd) syms
    /\ Forall (decided (l_half l) (width e t)) (concat pds)
    /\ (let zeros := values_at (1/2) (c_level_width (e_config e)) (fun d => negb (cur d)) (concat pds) in let ones := values_at (1/2) (c_level_width (e_config e)) cur (concat pds) in
        zeros <> [] -> ones <> [] -> values_at 0 (c_cross_width (e_config e)) (fun d => xorb (prev d) (cur d)) (concat pds) <> [] ->
        (let low := match c_y_0 (e_config e) with Some v => v | None => Pam2Spec.mean zeros end in
         let amp := match c_y_1 (e_config e) with Some v => v - low | None => Pam2Spec.mean ones - Pam2Spec.mean zeros end in exists mc, mask_convert mk amp t = Ok mc /\ adjustable mc) ->
        exists m e1, completed false e m e1 edges t).
Proof.
  intros FL CE SP P D LE NE MK FA RP PC SK EL EU WI. pose proof (period_pos _ _ P SP) as T.
  destruct (i_width_ok t (e_t_delta e) T D) as (w & W & W2). destruct (window_axis_ok w t (e_t_delta e) W2) as (t0 & T0).
  destruct (sample_all_total t (e_t_delta e) edges (waves (e_waveforms e)) T D LE NE) as (centers & SA).
  destruct (centers_symbols _ _ _ _ _ _ _ T D SA (waves_length (e_waveforms e)) W T0) as (syms & F & PS & LS).
  destruct (verticals_total t (e_t_delta e) (l_half l) (c_level_width (e_config e)) (c_cross_width (e_config e)) edges _ centers w t0 T D WI SA (waves_length (e_waveforms e)) W T0) as (vs & MV).
  destruct (verticals _ _ _ _ _ _ _ _ _ _ _ T D WI SA (waves_length (e_waveforms e)) W T0 MV) as (pds & SPD & EP). destruct (fold_merge _ _ _ _ _ _ SPD) as (G1 & G2 & G3 & G4 & G5 & _).
  exists syms, pds. split; [exact F|]. split; [rewrite PS; exact EP|]. split; [exact G1|]. intros zeros ones N0 N1 NC MU. unfold zeros in N0, MU. unfold ones in N1, MU. rewrite <- G3 in N0, MU. rewrite <- G4 in N1, MU. rewrite <- G5 in NC.
  assert (US : forall x : list R, x <> [] -> exists u, usamples x = Some u) by (intros x H; destruct (usamples_spec x H) as (u & E & _); exists u; exact E).
  destruct (US _ N0) as (u0 & U0). destruct (US _ N1) as (u1 & U1). destruct (US _ NC) as (uc & UC). pose proof (all_inside t (e_t_delta e) edges _ _ _ SA (waves_length (e_waveforms e)) W) as FI.
  assert (RS : exists r, results percentile cast fuel draw (e_waveforms e) (e_mask e) (e_resolution e) (e_t_delta e) (e_config e) l edges t (e_masked e) = Ok r).
  { unfold EyeRunProofs.results. destruct (Reqb (e_t_delta e) 0) eqn:TZ; [apply Reqb_true in TZ; lra|]. rewrite SA. cbn [bind].
    assert (ME : exists m dirs yz ua mc offs hs mg bad, measured percentile (e_waveforms e) (e_mask e) (e_t_delta e) (e_config e) l t centers = Ok (m, dirs, yz, ua) /\ mask_margin m = Some mg /\ mask_convert mk ua t = Ok mc /\ adjustable mc
      /\ eye_sample_mask int_of_float (Some mk) (e_t_delta e) t yz ua (combine (map snd (waves (e_waveforms e))) centers) = Ok (offs, hs, mg, bad) /\ -1 <= mg <= 1).
    { unfold measured. rewrite SK. assert (CO : collect (fun w : list R * list (R * Z) => sample_vertical int_of_float (fst w) (snd w) (e_t_delta e) t (l_half l) (c_level_width (e_config e)) (c_cross_width (e_config e))) (combine (map snd (waves (e_waveforms e))) centers) = (vs, None)) by (apply collect_ok; exact MV).
      rewrite CO. cbn [outcome bind]. unfold measure_y at 1 2 3. cbn [m_y_0 m_amp m_y_cross]. rewrite U0, U1, UC. cbn [lift2 some_value bind].
      match goal with |- context [update_levels ?a ?b ?c ?d ?f ?g ?h] => destruct (update_levels a b c d f g h) as [[yz ua] yh] eqn:UL end.
      assert (MU' : exists mc, mask_convert mk ua t = Ok mc /\ adjustable mc).
      { assert (V0 : value u0 = Pam2Spec.mean (v_0 (fold_left merge vs no_vertical))) by (unfold usamples in U0; destruct (v_0 (fold_left merge vs no_vertical)); [discriminate|injection U0 as <-; reflexivity]).
        assert (V1 : value u1 = Pam2Spec.mean (v_1 (fold_left merge vs no_vertical))) by (unfold usamples in U1; destruct (v_1 (fold_left merge vs no_vertical)); [discriminate|injection U1 as <-; reflexivity]).
        cbv zeta in MU. rewrite <- V0, <- V1 in MU. unfold update_levels in UL. injection UL as _ <- _. unfold find_levels in FL. destruct (c_y_0 (e_config e)) as [v|] eqn:Y0; [rewrite (found_low round6 fit aic _ _ _ _ _ FL Y0)|]; exact MU. }
      destruct (horizontals_total t (e_t_delta e) yz ua (value uc) (c_time_height (e_config e)) (c_edge_lower (e_config e)) (c_edge_upper (e_config e)) edges _ centers w t0 vs pds _ _ _ _ T D SA (waves_length (e_waveforms e)) W T0 SPD EP) as (h & ->). cbn [bind]. rewrite MK.
      destruct MU' as (mc & MC & AD). destruct (mask_total mk mc (e_t_delta e) t yz ua (combine (map snd (waves (e_waveforms e))) centers) w t0 T D W T0 FI MC AD) as (offs & hs & mg & bad & SM & MR). rewrite SM. cbn [bind].
      destruct (C49_curves (e_t_delta e) t yz ua (combine (map snd (waves (e_waveforms e))) centers) [1 / 2] w t0 T D W T0) as (cr & BC & _); [exact FI|]. rewrite BC. cbn [bind]. do 2 eexists. exists yz, ua, mc, offs, hs, mg, bad. split; [reflexivity|]. repeat (split; [assumption || reflexivity|]). exact MR. }
    destruct ME as (m & dirs & yz & ua & mc & offs & hs & mg & bad & -> & MM & MC & AD & SM & MR). cbn [bind]. rewrite PC. destruct (cloud_total cast fuel t (e_t_delta e) yz ua (combine (map snd (waves (e_waveforms e))) centers) (e_resolution e) (n_sym m) T D) as (h & ->). cbn [bind].
    unfold mask_found. rewrite MK, SK, MC. cbn [bind]. rewrite SM. cbn [bind]. unfold pictures. rewrite MM.
    match goal with |- context [draw_images _ _ ?r ?h ?a ?b _ ?mg ?hs ?os ?td ?tt ?yz ?ua ?ws] => destruct (masked_images_ok r h a b mc mk _ hs os bad td tt yz ua ws w t0 RP EL EU T D W T0 FI FA MC AD SM MR) as (u & ->) end. cbn [bind]. eexists. reflexivity. }
  destruct RS as ([[[[m h] dirs] im] pr] & RS). destruct (calculate_eq round6 fit aic new_cdr percentile cast fuel draw false e l edges t m h dirs im pr FL) as (e1 & E & _ & _ & _ & _ & CE1 & CA); [unfold EyeRunProofs.clock; rewrite CE; reflexivity|exact SP|intros X; discriminate X|exact RS|].
  exists m, e1. split; [exact E|]. split; [unfold get_clock_edges; rewrite CA, CE1; reflexivity|]. split; [exact P|]. split; [exact SP|exact D].
Qed.
End Images.
Print Assumptions C62_clean.
Print Assumptions C62_grid.
Print Assumptions C62_no_mask.
Print Assumptions C62_mask.
Print Assumptions C62_hits.
Print Assumptions C62_no_hits.
Print Assumptions C62_stale_mask_refuted.
Print Assumptions C62_finishes.

(** ** A concrete case: the bits of C58_witness and a hexagon inside their eye *)
Definition bits_mask : mask R := MHexagon (new_hexagon (Plain (1 / 4)) (Plain (3 / 8)) (Plain (1 / 4)) (Plain (1 / 4)) (Plain (1 / 4)) true).
Definition bits_outline : mask R := MHexagon (Hexagon (Plain (1 / 4)) (Plain (3 / 8)) (Plain (1 / 4)) (Plain (1 / 4)) (Plain (1 / 4)) true true).
Lemma bits_adjustable : adjustable bits_outline.
Proof.
  intros f _. unfold bits_outline. cbn [mask_adjusted]. unfold hex_adjust. cbn [hx1 hx2 hy1 hyl hyu val hzero hconv nlt nofZ NumR]. destruct (Rltb 0 f); [|cbn [bind]; unfold hex_get_paths, get_paths; cbn [hconv]; eexists; reflexivity].
  unfold proportional, py_div. cbn [neq nsub nhalf nofZ NumR]. destruct (Reqb (/ 2 - 1 / 4) 0) eqn:E; [apply Reqb_true in E; lra|]. cbn [bind]. unfold hex_get_paths, get_paths. cbn [hconv]. eexists. reflexivity.
Qed.
Lemma bits_level j : 0 <= nth j bits_y 0 <= 1.
Proof.
  destruct (le_lt_dec 28 j) as [L|L]; [rewrite nth_overflow by exact L; lra|]. do 28 (destruct j as [|j]; [cbn; lra|]). lia.
Qed.
Lemma bits_centre b j : In b bits_clock -> -1 <= INR j - b <= 1 -> nth j bits_y 0 = 0 \/ nth j bits_y 0 = 1.
Proof.
  intros I D. unfold bits_clock in I. rewrite INR_IZR_INZ in D. destruct I as [<-|[<-|[<-|[<-|[]]]]];
    [assert (J : (7 <= Z.of_nat j <= 9)%Z) by (split; apply le_IZR; lra)|assert (J : (11 <= Z.of_nat j <= 13)%Z) by (split; apply le_IZR; lra)|assert (J : (15 <= Z.of_nat j <= 17)%Z) by (split; apply le_IZR; lra)|assert (J : (19 <= Z.of_nat j <= 21)%Z) by (split; apply le_IZR; lra)];
    do 22 (destruct j as [|j]; [first [exfalso; lia|left; reflexivity|right; reflexivity]|]); exfalso; lia.
Qed.
Lemma adjacent_seq {X} (f : nat -> X) n : forall lo a b, In (a, b) (LinesSpec.adjacent (map f (seq lo n))) -> exists j, a = f j /\ b = f (S j).
Proof.
  induction n as [|n IH]; intros lo a b I; [destruct I|]. destruct n as [|n]; [destruct I|]. cbn [seq map] in I, IH. cbn [LinesSpec.adjacent] in I. destruct I as [E|I]; [injection E as <- <-; exists lo; split; reflexivity|exact (IH (S lo) a b I)].
Qed.
Lemma bits_clear b lo n p : In b bits_clock -> ~ meets 0 1 (hex_paths (Hexagon (Plain (1 / 4)) (Plain (3 / 8)) (Plain (1 / 4)) (Plain (1 / 4)) (Plain (1 / 4)) true true)) (view 4 1 0 b bits_y lo n) p.
Proof.
  intros IB (path & a & c & q & r & IP & IA & IQ & _ & (u & U & A1 & A2) & (v & V & Q1 & Q2)). unfold view in IA. rewrite map_map in IA. apply adjacent_seq in IA. destruct IA as (j & -> & ->). cbn [fst snd] in A1, A2. rewrite S_INR in A1.
  pose proof (bits_level j) as L1. pose proof (bits_level (S j)) as L2. unfold Rdiv in A2. rewrite Rinv_1, !Rmult_1_r, !Rminus_0_r in A2. unfold Rdiv in A1.
  assert (Y : 0 <= snd p <= 1) by (rewrite A2; nra).
  unfold hex_paths, limit_paths in IP. cbn [hx1 hx2 hy1 hyl hyu val one nhalf nofZ nsub nadd neg NumR] in IP. destruct IP as [<-|[<-|[<-|[]]]].
  - assert (B : 1 / 4 <= fst p <= 3 / 4 /\ 1 / 4 <= snd p <= 3 / 4). { cbn [LinesSpec.adjacent In] in IQ. repeat (destruct IQ as [E|IQ]; [injection E as <- <-; cbn [fst snd] in Q1, Q2; unfold one in Q1, Q2; cbn [nofZ NumR] in Q1, Q2; rewrite Q1, Q2; clear - V; repeat split; nra|]). destruct IQ. }
    destruct B as ((X1 & X2) & Y1 & Y2). set (d := INR j - b) in *  . assert (FX : fst p = 1 / 2 + (d + u) / 4) by (rewrite A1; unfold d; field). assert (DI : exists z, d = IZR z). { unfold d, bits_clock in *  . rewrite INR_IZR_INZ. destruct IB as [<-|[<-|[<-|[<-|[]]]]]; eexists; rewrite <- minus_IZR; reflexivity. } destruct DI as (z & DZ).
    assert (ZR : (-2 <= z <= 1)%Z). { split; apply le_IZR; rewrite <- DZ; [|lra]. lra. }
    assert (SJ : INR (S j) - b = d + 1) by (rewrite S_INR; unfold d; ring).
    assert (Z4 : (z = -2 \/ z = -1 \/ z = 0 \/ z = 1)%Z) by lia. destruct Z4 as [-> |[-> |[-> | -> ]]].
    + assert (u = 1) by lra. subst u. destruct (bits_centre b (S j) IB ltac:(lra)) as [H|H]; rewrite H in A2; lra.
    + assert (E2 : nth (S j) bits_y 0 = nth j bits_y 0). { unfold d in DZ. clear - IB DZ. unfold bits_clock in IB. rewrite INR_IZR_INZ in DZ. assert (J : (Z.of_nat j = 7 \/ Z.of_nat j = 11 \/ Z.of_nat j = 15 \/ Z.of_nat j = 19)%Z) by (destruct IB as [<-|[<-|[<-|[<-|[]]]]]; [left|right; left|right; right; left|right; right; right]; apply eq_IZR; lra). destruct J as [J|[J|[J|J]]]; [replace j with 7%nat by lia|replace j with 11%nat by lia|replace j with 15%nat by lia|replace j with 19%nat by lia]; reflexivity. }
      rewrite E2 in A2. destruct (bits_centre b j IB ltac:(lra)) as [H|H]; rewrite H in A2; lra.
    + assert (E2 : nth (S j) bits_y 0 = nth j bits_y 0). { unfold d in DZ. clear - IB DZ. unfold bits_clock in IB. rewrite INR_IZR_INZ in DZ. assert (J : (Z.of_nat j = 8 \/ Z.of_nat j = 12 \/ Z.of_nat j = 16 \/ Z.of_nat j = 20)%Z) by (destruct IB as [<-|[<-|[<-|[<-|[]]]]]; [left|right; left|right; right; left|right; right; right]; apply eq_IZR; lra). destruct J as [J|[J|[J|J]]]; [replace j with 8%nat by lia|replace j with 12%nat by lia|replace j with 16%nat by lia|replace j with 20%nat by lia]; reflexivity. }
      rewrite E2 in A2. destruct (bits_centre b j IB ltac:(lra)) as [H|H]; rewrite H in A2; lra.
    + assert (u = 0) by lra. subst u. destruct (bits_centre b j IB ltac:(lra)) as [H|H]; rewrite H in A2; lra.
  - assert (B : 5 / 4 <= snd p). { cbn [LinesSpec.adjacent In] in IQ. repeat (destruct IQ as [E|IQ]; [injection E as <- <-; cbn [fst snd] in Q2; unfold one in Q2; cbn [nofZ NumR] in Q2; rewrite Q2; clear - V; nra|]). destruct IQ. } lra.
  - assert (B : snd p <= - (1 / 4)). { cbn [LinesSpec.adjacent In] in IQ. repeat (destruct IQ as [E|IQ]; [injection E as <- <-; cbn [fst snd] in Q2; unfold neg in Q2; cbn [nofZ nsub NumR] in Q2; rewrite Q2; clear - V; nra|]). destruct IQ. } lra.
Qed.
Example C62_witness round6 fit aic new_cdr percentile cast fuel draw : fair (line_aa draw) -> exists e0 m e1,
  construct bits_wave None (Some (ListOf [(true, bits_clock)])) (Some bits_mask) 10 (Some (Some bits_config)) = Ok e0
  /\ completed round6 fit aic new_cdr percentile cast fuel draw false e0 m e1 [bits_clock] 4
  /\ e_mask e0 = Some bits_mask /\ c_skip_measures (e_config e0) = false /\ n_sym_bad m = Some 0%nat.
Proof.
  intros FA.
  destruct (construct bits_wave None (Some (ListOf [(true, bits_clock)])) (Some bits_mask) 10 (Some (Some bits_config))) as [e0|] eqn:C; [|discriminate].
  assert (TD : e_t_delta e0 = 1). { injection C as <-. change ((INR 27 - INR 0) / INR 27 = 1). rewrite (INR_IZR_INZ 27), (INR_IZR_INZ 0). cbn [Z.of_nat Pos.of_succ_nat Pos.succ]. lra. }
  assert (WV : waves (e_waveforms e0) = [(bits_t, bits_y)]) by (injection C as <-; reflexivity).
  assert (CF : e_config e0 = bits_config) by (injection C as <-; reflexivity). assert (CE : e_clock_edges e0 = Some [bits_clock]) by (injection C as <-; reflexivity).
  assert (MK : e_mask e0 = Some bits_mask) by (injection C as <-; reflexivity). assert (MC : e_converted e0 = None) by (injection C as <-; reflexivity). assert (RS : e_resolution e0 = 10%Z) by (injection C as <-; reflexivity). clear C.
  assert (WD : width e0 4 = 3 / 10) by (unfold width; rewrite CF, TD; apply Rmax_left; cbn; lra).
  assert (PP : forall p, is_period [bits_clock] p -> 0 < p). { intros p (l & [<-|[]] & k & a & b & A & B & ->). unfold bits_clock in A, B. destruct k as [|[|[|k]]]; cbn in A, B; [injection A as <-; injection B as <-; lra..|destruct k as [|k]; [discriminate|destruct k; discriminate]]. }
  set (l := Levels 0 1 (1 / 2) 0 0 false).
  assert (FL : exists l, find_levels round6 fit aic (e_config e0) (all_samples (e_waveforms e0)) false = Ok l /\ l_half l = 1 / 2) by (rewrite CF; eexists; split; [reflexivity|]; cbn; lra). clear l. destruct FL as (l & FL & LH).
  destruct (C62_finishes round6 fit aic new_cdr percentile cast fuel draw e0 l [bits_clock] 4 bits_mask FL CE bits_period PP) as (syms & pds & F & EP & DE & GO);
    [rewrite TD; lra|rewrite WV; cbn; lia|rewrite WV; intros w [<-|[]]; discriminate|exact MK|exact FA|rewrite RS; lia|rewrite CF; reflexivity|rewrite CF; reflexivity|rewrite CF; cbn; lra|rewrite CF; cbn; lra|rewrite WD; lra|].
  rewrite WV, TD in F. cbn [combine] in F. inversion F as [|? sy ? sys (first & FI & (keep & SY & KP) & SE) F' X1 X2]; subst. inversion F'; subst. clear F F'. cbn [fst snd] in FI, SY, KP, SE. assert (F0 : first = 0) by (cbn in FI; congruence). subst first. clear FI.
  assert (END : end_time 1 0 28 = 27) by (unfold end_time; rewrite INR_IZR_INZ; cbn [Z.of_nat Pos.of_succ_nat Pos.succ]; lra). change (length bits_t) with 28%nat in KP. rewrite END in KP.
  assert (KT : forall b, In b bits_clock -> keep b = true) by (intros b I; apply KP; [exact I|]; unfold well_inside, bits_clock in *  ; destruct I as [<-|[<-|[<-|[<-|[]]]]]; lra).
  assert (FK : filter keep bits_clock = bits_clock) by (unfold bits_clock in *  ; cbn [filter]; rewrite !KT by (cbn; tauto); reflexivity). rewrite FK in SY. clear FK KT KP keep END.
  destruct sy as [|[b1 p1] [|[b2 p2] [|[b3 p3] [|[b4 p4] [|]]]]]; try discriminate. unfold bits_clock in SY. injection SY as -> -> -> -> .
  destruct pds as [|pd [|]]; try discriminate. cbn [map] in EP. injection EP as EP. destruct pd as [|[q1 d1] [|[q2 d2] [|[q3 d3] [|[q4 d4] [|]]]]]; try discriminate. cbn [map fst snd] in EP. injection EP as -> -> -> -> .
  cbn [concat] in DE, GO. rewrite app_nil_r in DE, GO. rewrite LH, WD in DE. rewrite CF in GO. cbn [c_level_width c_cross_width bits_config] in GO.
  inversion SE as [|? ? SE1 SE']; subst. inversion SE' as [|? ? SE2 _]; subst. inversion DE as [|? ? DE1 DE']; subst. inversion DE' as [|? ? DE2 _]; subst. cbn [fst snd] in SE1, SE2.
  destruct SE1 as (c1 & lo1 & n1 & _ & K1 & L1 & A1 & B1 & ->). destruct SE2 as (c2 & lo2 & n2 & _ & K2 & L2 & A2 & B2 & ->).
  assert (Z0 : exists k, 0 = IZR k * 1) by (exists 0%Z; lra). rewrite (K1 Z0) in *  . rewrite (K2 Z0) in *  . clear K1 K2 Z0 SE' SE DE DE'.
  destruct DE1 as (_ & D1 & _). destruct DE2 as (D2p & D2 & _). cbn [fst snd] in D1, D2p, D2.
  pose proof (level_of 8 (1/2) 8 bits_y lo1 n1 _ _ 1 ltac:(cbn; lra) ltac:(reflexivity) D1) as H1. pose proof (level_of 12 (1/2) 12 bits_y lo2 n2 _ _ 0 ltac:(cbn; lra) ltac:(reflexivity) D2) as H2. pose proof (level_of 8 (-1/2) 12 bits_y lo2 n2 _ _ 1 ltac:(cbn; lra) ltac:(reflexivity) D2p) as H2p.
  assert (C1 : cur d1 = true) by (apply H1; lra). assert (C2 : cur d2 = false) by (destruct (cur d2); [assert (1 / 2 < 0) by (apply H2; reflexivity); lra|reflexivity]). assert (P2 : prev d2 = true) by (apply H2p; lra).
  destruct GO as (m & e1 & E).
  - eapply at_ne; [right; left; reflexivity|cbn [snd]; rewrite C2; reflexivity|apply D2].
  - eapply at_ne; [left; reflexivity|cbn [snd]; exact C1|apply D1].
  - eapply at_ne; [right; left; reflexivity|cbn [snd]; rewrite C2, P2; reflexivity|]. cbn [fst]. intros N. assert (I : In (nth 10 bits_y 0) (values_in 0 (1/10) (view 4 1 0 12 bits_y lo2 n2))); [|rewrite N in I; destruct I].
    unfold values_in. apply in_map_iff. exists (1 / 2 + (0 + INR 10 * 1 - 12) / 4, nth 10 bits_y 0). split; [reflexivity|]. apply filter_In. split.
    + unfold view. apply in_map_iff. exists 10%nat. split; [reflexivity|]. apply in_seq. rewrite !INR_IZR_INZ in A2, B2. assert (G : (Z.of_nat lo2 <= 8 /\ 17 <= Z.of_nat (lo2 + n2))%Z) by (split; apply le_IZR; lra). lia.
    + cbn [fst]. rewrite INR_IZR_INZ. cbn [Z.of_nat Pos.of_succ_nat Pos.succ]. apply andb_true_iff. split; apply Rleb_true; lra.
  - eexists. split; [reflexivity|exact bits_adjustable].
  - exists e0, m, e1. split; [reflexivity|]. split; [exact E|]. split; [exact MK|]. assert (SK : c_skip_measures (e_config e0) = false) by (rewrite CF; reflexivity). split; [exact SK|].
    destruct (C62_hits round6 fit aic new_cdr percentile cast fuel draw false e0 m e1 [bits_clock] 4 bits_mask E MK SK FA) as (im & l' & low & amp & mc & paths & syms & offs & _ & _ & DL & MCV & MP & F & LO & NB & _ & OF & _).
    unfold drawn_levels in DL. rewrite SK, CF in DL. destruct DL as (my & u0 & ua & _ & _ & _ & DL0 & DL1). cbn [c_y_0 c_y_1 bits_config] in DL0, DL1. subst low amp. cbn [mask_convert bits_mask hex_convert new_hexagon convert hx1 hx2 hy1 hyl hyu hzero bind] in MCV. injection MCV as <-. cbn [mask_paths] in MP. unfold hex_get_paths, get_paths in MP. cbn [hconv] in MP. injection MP as <-.
    rewrite WV, TD in F. cbn [combine] in F. inversion F as [|? sy ? sys (first & FI & (keep & SY & _) & SE) F' X1 X2]; subst. inversion F'; subst. clear F F'. cbn [fst snd] in FI, SY, SE. assert (F0 : first = 0) by (cbn in FI; congruence). subst first.
    destruct (concat offs) as [|k ks] eqn:CO; [exact NB|exfalso]. assert (IK : In k (concat offs)) by (rewrite CO; left; reflexivity). apply in_concat in IK. destruct IK as (o & IO & KO). apply In_nth_error in IO. destruct IO as (j & NO).
    destruct (OF j o k NO KO) as (sy' & s & p & N1 & N2 & ME). destruct j as [|j]; [|destruct j; discriminate]. injection N1 as <-. pose proof (nth_error_In _ _ N2) as IS. rewrite Forall_forall in SE. destruct (SE s IS) as (b' & lo & n & _ & KB & _ & _ & _ & ES).
    assert (IB : In (fst s) bits_clock) by (assert (IF : In (fst s) (map fst sy)) by (apply in_map; exact IS); rewrite SY in IF; apply filter_In in IF; apply IF). assert (Z0 : exists k, 0 = IZR k * 1) by (exists 0%Z; lra). rewrite (KB Z0) in ES. rewrite ES in ME. replace (1 - 0) with 1 in ME by lra. exact (bits_clear _ _ _ _ IB ME).
Qed.
(** A drawing with weights between 0 and 1. *)
Example C62_drawing : exists draw : drawing, fair (line_aa draw) /\ line_aa draw 0 0 1 2 <> [].
Proof. exists (Drawing (fun v => [v; 0; 1 - v; 1]) (fun _ _ _ => true) (fun x y r a b => ((a - x) * (a - x) + (b - y) * (b - y) =? r * r)%Z) (fun a b c d => [(a, b, 1); (c, d, 1 / 2)]) (fun _ _ _ _ => 0)). split; [|discriminate]. intros a b c d x y v [E|[E|[]]]; injection E as _ _ <-; lra. Qed.
Print Assumptions C62_witness.
