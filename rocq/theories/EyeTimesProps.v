(** C58, continued: the times and the bathtub curve of a completed eye diagram. *)
From Coq Require Import ZArith Reals Bool List Lia Lra.
Import ListNotations.
From Verif Require Import Base Num RBool LinesModel LinesSpec LinesProofs StatsModel MaskModel MaskProofs EyeModel EyeSpec EyeProofs EyeRProofs EyeProps UncertainProofs Pam2Model Pam2Spec Pam2Proofs Pam2Props MathModel GaussProofs EyeImageModel EyeRunModel EyeRunSpec EyeRunProofs EyeRunPeriod EyeReportSpec EyeReportProps.
From Verif Require CdrModel.
Local Open Scope R_scope.

(** Samples of a symbol with the low level at 0 and the high one at 1. *)
Definition scaled (low amp : R) (ps : list (R * R)) : list (R * R) := map (fun p => (fst p, (snd p - low) / amp)) ps.
Lemma samples_scaled t0 y w t low amp s : samples_of t0 (map (fun v => (v - low) / amp) y) w t s = scaled low amp (samples_of t0 y w t s).
Proof.
  unfold samples_of, scaled, window_fb. cbn [fst snd]. rewrite pyslice_map. set (a := map _ t0). set (b := pyslice y _ _). clearbody a b. revert b.
  induction a as [|x a IH]; intros [|z b]; [reflexivity..|]. cbn [combine map fst snd]. f_equal. apply IH.
Qed.
(** The sampled times of the symbols [pd]. *)
Definition timed (height level lower upper low amp : R) (pd : list (list (R * R) * decision)) (parts : list (list (R * R))) (h : horizontal) : Prop :=
  let symbols := map (fun s => scaled low amp (fst s)) pd in
  let dirs := map (fun s => edge_of (snd s)) pd in
  h_left h = flat_map (left_times level height) symbols /\ h_right h = flat_map (right_times level height) symbols
  /\ h_rise_lower h = edge_times 1 lower height dirs parts /\ h_rise_upper h = edge_times 1 upper height dirs parts /\ h_rise_half h = edge_times 1 (1/2) height dirs parts
  /\ h_fall_lower h = edge_times (-1) lower height dirs parts /\ h_fall_upper h = edge_times (-1) upper height dirs parts /\ h_fall_half h = edge_times (-1) (1/2) height dirs parts.
Lemma edge_times_app dir level height d1 p1 d2 p2 : length d1 = length p1 -> edge_times dir level height (d1 ++ d2) (p1 ++ p2) = edge_times dir level height d1 p1 ++ edge_times dir level height d2 p2.
Proof.
  intros L. unfold edge_times. rewrite <- flat_map_app. f_equal. revert p1 L. induction d1 as [|a d1 IH]; intros [|b p1] L; try discriminate; [reflexivity|]. cbn [app combine]. f_equal. apply IH. cbn in L. lia.
Qed.
Lemma timed_app height level lower upper low amp pd1 parts1 h1 pd2 parts2 h2 : length pd1 = length parts1 ->
  timed height level lower upper low amp pd1 parts1 h1 -> timed height level lower upper low amp pd2 parts2 h2 -> timed height level lower upper low amp (pd1 ++ pd2) (parts1 ++ parts2) (hmerge h1 h2).
Proof.
  intros L (A1 & A2 & A3 & A4 & A5 & A6 & A7 & A8) (B1 & B2 & B3 & B4 & B5 & B6 & B7 & B8). unfold timed. cbn [hmerge h_left h_right h_rise_lower h_rise_upper h_rise_half h_fall_lower h_fall_upper h_fall_half].
  rewrite !map_app, !flat_map_app. rewrite !edge_times_app by (rewrite map_length; exact L). rewrite A1, A2, A3, A4, A5, A6, A7, A8, B1, B2, B3, B4, B5, B6, B7, B8. repeat split.
Qed.
Lemma record_times t td tz yz ua yc hh lo up (y : list R) eg c w t0 (pd : list (list (R * R) * decision)) : 0 < t -> 0 < td ->
  step3_sample int_of_float float_mod t td tz (Z.of_nat (length y)) eg = Ok c -> get_i_width int_of_float t td = Ok w -> window_axis w t td = Ok t0 ->
  map fst pd = map (samples_of t0 y w t) c ->
  exists h parts, sample_horizontal int_of_float y c (map edge_of (map snd pd)) td t yz ua yc hh lo up = Ok h
    /\ Forall2 (fun s part => swing (Z.to_nat w) (edge_of (snd s)) (scaled yz ua (fst s)) part) pd parts
    /\ timed hh ((yc - yz) / ua) lo up yz ua pd parts h.
Proof.
  intros T D S3 W T0 EP. assert (LC : length pd = length c) by (rewrite <- (map_length fst pd), EP, map_length; reflexivity).
  assert (VD : Forall (fun x => x = 0 \/ x = 1 \/ x = -1)%Z (map edge_of (map snd pd))). { apply Forall_forall. intros x I. apply in_map_iff in I. destruct I as (q & <- & _). unfold edge_of. destruct (prev q), (cur q); lia. }
  destruct (C55_horizontal t td tz yz ua yc hh lo up y eg c w t0 (map edge_of (map snd pd)) T D S3 W T0 ltac:(rewrite !map_length; exact LC) VD) as (h & _ & parts & EH & _ & SW & RP & _).
  exists h, parts. split; [exact EH|]. 
  assert (SY : map (fun s => scaled yz ua (fst s)) pd = map (samples_of t0 (map (fun v => (v - yz) / ua) y) w t) c). { rewrite <- (map_map fst (scaled yz ua)), EP, map_map. apply map_ext. intros s. symmetry. apply samples_scaled. }
  split.
  - clear S3 VD EH RP. revert c parts EP LC SY SW. induction pd as [|s pd IH]; intros [|x c] parts EP LC SY SW; try discriminate; cbn [map combine] in EP, LC, SY, SW.
    + inversion SW; subst. constructor.
    + inversion SW as [|? part ? parts' S1 S2]; subst. injection EP as E1 E2. injection SY as Y1 Y2. cbn [fst snd] in S1. constructor; [rewrite Y1; exact S1|]. apply (IH c parts' E2 ltac:(cbn in LC; lia) Y2 S2).
  - destruct RP as (R1 & R2 & R3 & R4 & R5 & R6 & R7 & R8). unfold timed. rewrite SY. rewrite <- (map_map snd edge_of) in *  . repeat (split; [assumption || (rewrite R1 || rewrite R2; rewrite !flat_map_concat_map, map_map; reflexivity)|]). assumption.
Qed.
Lemma all_times t td yz ua yc hh lo up edges ws centers w t0 vs pds th width lw cw : 0 < t -> 0 < td ->
  sample_all t td edges ws = Ok centers -> (forall w, In w ws -> length (fst w) = length (snd w)) -> get_i_width int_of_float t td = Ok w -> window_axis w t td = Ok t0 ->
  Forall2 (sampled th width lw cw) vs pds -> map (map fst) pds = map (fun yc => map (samples_of t0 (fst yc) w t) (snd yc)) (combine (map snd ws) centers) ->
  exists h parts, measure_horizontal int_of_float td t yz ua yc hh lo up (combine (combine (map snd ws) centers) (map (fun v => v_edge_dir v) vs)) = Ok h
    /\ Forall2 (fun s part => swing (Z.to_nat w) (edge_of (snd s)) (scaled yz ua (fst s)) part) (concat pds) parts
    /\ timed hh ((yc - yz) / ua) lo up yz ua (concat pds) parts h.
Proof.
  intros T D SA L W T0. destruct (sample_all_inv _ _ _ _ _ SA) as (LE & F). clear SA. unfold measure_horizontal.
  assert (G : forall ws, (forall w, In w ws -> length (fst w) = length (snd w)) -> forall edges centers, (length ws <= length edges)%nat ->
     Forall2 (fun wc c => exists tz, nth_error (fst (fst wc)) 0 = Some tz /\ step3_sample int_of_float float_mod t td tz (Z.of_nat (length (fst (fst wc)))) (snd wc) = Ok c) (combine ws edges) centers ->
     forall vs pds h0 pd0 parts0, Forall2 (sampled th width lw cw) vs pds -> map (map fst) pds = map (fun yc => map (samples_of t0 (fst yc) w t) (snd yc)) (combine (map snd ws) centers) ->
     Forall2 (fun s part => swing (Z.to_nat w) (edge_of (snd s)) (scaled yz ua (fst s)) part) pd0 parts0 -> timed hh ((yc - yz) / ua) lo up yz ua pd0 parts0 h0 ->
     exists h parts, foldM (fun h (w : list R * list (R * Z) * list Z) => let '(y, symbols, dirs) := w in
         bind (sample_horizontal int_of_float y symbols dirs td t yz ua yc hh lo up) (fun o => Ok (hmerge h o))) h0 (combine (combine (map snd ws) centers) (map (fun v => v_edge_dir v) vs)) = Ok h
       /\ Forall2 (fun s part => swing (Z.to_nat w) (edge_of (snd s)) (scaled yz ua (fst s)) part) (pd0 ++ concat pds) parts
       /\ timed hh ((yc - yz) / ua) lo up yz ua (pd0 ++ concat pds) parts h).
  { clear - T D W T0. induction ws as [|wv ws IH]; intros L edges centers LE F vs pds h0 pd0 parts0 SP EP S0 H0.
    - cbn in EP. destruct pds; [|discriminate]. exists h0, parts0. cbn [concat]. rewrite app_nil_r. split; [reflexivity|]. split; assumption.
    - destruct edges as [|eg edges]; [cbn in LE; lia|]. cbn [combine] in F. inversion F as [|? c ? cs (tz & N & S3) F' X1 X2]; subst. cbn [fst snd] in N, S3. rewrite (L wv (or_introl eq_refl)) in S3.
      cbn [map combine] in EP. destruct pds as [|pd pds]; [discriminate|]. inversion SP as [|v ? vs' ? SV SP']; subst. cbn [map] in EP. injection EP as E1 E2. cbn [fst snd] in E1. destruct SV as (_ & ED & _).
      destruct (record_times t td tz yz ua yc hh lo up (snd wv) eg c w t0 pd T D S3 W T0 E1) as (h & parts & EH & SW & TM). cbn [map combine foldM]. rewrite ED, EH. cbn [bind concat]. rewrite app_assoc.
      apply (IH (fun w' I => L w' (or_intror I)) edges cs ltac:(cbn in LE; lia) F' vs' pds _ (pd0 ++ pd) (parts0 ++ parts) SP' E2); [apply Forall2_app; assumption|]. apply timed_app; [exact (same_length _ _ _ S0)|exact H0|exact TM]. }
  intros SP EP. apply (G ws L edges centers LE F vs pds no_horizontal [] [] SP EP); [constructor|]. repeat split.
Qed.

Section Times.
Variable round6 : R -> R.
Variable fit : nat -> list R -> result (list (R * R * R)).
Variable aic : list (R * R * R) -> list R -> R.
Variable new_cdr : R -> cdr.
Variable percentile : list R -> R -> R.
Variable cast : R -> Z.
Variable fuel : nat.
Variable draw : drawing.
Let find_levels := find_levels round6 fit aic.
Let completed := completed round6 fit aic new_cdr percentile cast fuel draw.

Lemma measured_times w mk td c l t centers m dirs yz ua : c_skip_measures c = false -> measured percentile w mk td c l t centers = Ok (m, dirs, yz, ua) ->
  exists vs my uc h curves, mapM (fun x : list R * list (R * Z) => sample_vertical int_of_float (fst x) (snd x) td t (l_half l) (c_level_width c) (c_cross_width c)) (combine (map snd (waves w)) centers) = Ok vs
    /\ in_y m = Some my /\ m_y_cross my = Some uc
    /\ measure_horizontal int_of_float td t yz ua (value uc) (c_time_height c) (c_edge_lower c) (c_edge_upper c) (combine (combine (map snd (waves w)) centers) (map (fun v => v_edge_dir v) vs)) = Ok h
    /\ in_t m = Some (measure_t t h) /\ bathtub_curves int_of_float td t yz ua (combine (map snd (waves w)) centers) [1 / 2] = Ok curves /\ bathtub_curve m = Some curves.
Proof.
  intros SK. unfold measured. rewrite SK. destruct (collect _ _) as [vs failed] eqn:CO. intros E. apply bind_ok in E. destruct E as (u & OF & E). destruct failed; [discriminate|]. apply collect_ok in CO.
  apply bind_ok in E. destruct E as (m0 & E0 & E). apply bind_ok in E. destruct E as (amp & E1 & E). destruct (update_levels _ _ _ _ _ _ _) as [[a b] h] eqn:UL.
  apply bind_ok in E. destruct E as (yc & E2 & E). apply bind_ok in E. destruct E as (hz & MH & E). apply bind_ok in E. destruct E as ([[[offs hs] mg] cnt] & MS & E). apply bind_ok in E. destruct E as (cu & BC & E). injection E as <- <- <- <-.
  destruct (m_y_cross (measure_y percentile (c_noise_floor c) (fold_left merge vs no_vertical))) as [uc|] eqn:UC; [|discriminate]. injection E2 as <-.
  exists vs, (measure_y percentile (c_noise_floor c) (fold_left merge vs no_vertical)), uc, hz, cu. repeat (split; [first [assumption|reflexivity]|]). reflexivity.
Qed.
Theorem C58_times d e m e1 edges t : completed d e m e1 edges t -> c_skip_measures (e_config e) = false -> width e t < 1 ->
  exists l syms pds low amp my uc w parts h crossings, find_levels (e_config e) (all_samples (e_waveforms e)) d = Ok l
    /\ Forall2 (record_symbols t (e_t_delta e)) (combine (waves (e_waveforms e)) edges) syms /\ map (map fst) pds = map (map snd) syms
    /\ Forall (decided (l_half l) (width e t)) (concat pds) /\ drawn_levels (e_config e) l m low amp
    /\ in_y m = Some my /\ m_y_cross my = Some uc
    /\ t / e_t_delta e + 3 / 2 < INR w <= t / e_t_delta e + 5 / 2 /\ (forall s, In s (concat pds) -> length (fst s) = (2 * w + 1)%nat)
    /\ Forall2 (fun s part => swing w (edge_of (snd s)) (scaled low amp (fst s)) part) (concat pds) parts
    /\ timed (c_time_height (e_config e)) ((value uc - low) / amp) (c_edge_lower (e_config e)) (c_edge_upper (e_config e)) low amp (concat pds) parts h
    /\ in_t m = Some (measure_t t h)
    /\ bathtub_curve m = Some [bathtub crossings]
    /\ (forall x, In x crossings <-> exists s a b, In s (concat pds) /\ In (a, b) (LinesSpec.adjacent (scaled low amp (fst s))) /\ snd a <> snd b /\ on_segment a b (x, 1 / 2) /\ 0 <= x <= 1).
Proof.
  intros C SK WI. destruct (whole _ _ _ _ _ _ _ _ _ _ _ _ _ _ C) as (l & centers & w & t0 & dirs & yz & ua & syms & T & FL & SA & W & T0 & ME & HM & CA & DI & RN & F & LS & PS & N & LC). pose proof C as (_ & _ & _ & _ & D).
  destruct (measured_times _ _ _ _ _ _ _ _ _ _ _ SK ME) as (vs & my & uc & h & curves & MV & IY & UC & MH & IT & BC & BB).
  destruct (verticals _ _ _ _ _ _ _ _ _ _ _ T D WI SA (waves_length (e_waveforms e)) W T0 MV) as (pds & SP & EP). destruct (fold_merge _ _ _ _ _ _ SP) as (G1 & _).
  destruct (all_times t (e_t_delta e) yz ua (value uc) (c_time_height (e_config e)) (c_edge_lower (e_config e)) (c_edge_upper (e_config e)) edges _ centers w t0 vs pds _ _ _ _ T D SA (waves_length (e_waveforms e)) W T0 SP EP) as (h' & parts & MH' & SW & TM). rewrite MH in MH'. injection MH' as <-.
  destruct (C49_curves (e_t_delta e) t yz ua (combine (map snd (waves (e_waveforms e))) centers) [1 / 2] w t0 T D W T0 (all_inside t (e_t_delta e) edges _ _ _ SA (waves_length (e_waveforms e)) W)) as (cr & BC' & CR). rewrite BC in BC'. cbn [map] in BC'. injection BC' as ->.
  exists l, syms, pds, yz, ua, my, uc, (Z.to_nat w), parts, h, (cr (1 / 2)). split; [exact FL|]. split; [exact F|]. split; [rewrite PS; exact EP|]. split; [exact G1|]. split; [exact (drawn _ _ _ _ _ _ _ _ _ _ _ _ _ FL ME)|]. split; [exact IY|]. split; [exact UC|].
  assert (PD : forall ps, In ps (map fst (concat pds)) <-> exists wv s, In wv (combine (map snd (waves (e_waveforms e))) centers) /\ In s (snd wv) /\ ps = samples_of t0 (fst wv) w t s).
  { intros ps. rewrite concat_map, EP. split.
    - intros I. apply in_concat in I. destruct I as (x & I & J). apply in_map_iff in I. destruct I as (wv & <- & I). apply in_map_iff in J. destruct J as (s & <- & J). exists wv, s. repeat split; assumption.
    - intros (wv & s & I & J & ->). apply in_concat. exists (map (samples_of t0 (fst wv) w t) (snd wv)). split; [apply in_map_iff; exists wv; split; [reflexivity|exact I]|apply in_map; exact J]. }
  split; [destruct (i_width_R _ _ _ T D W) as (W2 & W3 & W4); rewrite INR_IZR_INZ, Z2Nat.id by lia; split; assumption|].
  split; [|split; [exact SW|split; [exact TM|split; [exact IT|split; [exact BB|]]]]].
  - intros s I. destruct (proj1 (PD (fst s)) (in_map fst _ _ I)) as (wv & sy & I1 & I2 & ->). destruct (window_axis_length _ _ _ _ T0) as (H0 & HL). destruct (window_agree t0 (fst wv) w t sy H0 HL (all_inside t (e_t_delta e) edges _ _ _ SA (waves_length (e_waveforms e)) W wv sy I1 I2)) as (_ & L1 & L2 & _).
    destruct (i_width_R _ _ _ T D W) as (W2 & _). unfold samples_of. rewrite combine_length, L1, L2, Nat.min_id, HL. lia.
  - intros x. rewrite CR. split.
    + intros (wv & v & a & b & I & V & A & NE & SG & X). unfold windows in V. apply in_map_iff in V. destruct V as (s & <- & V). assert (IP : In (samples_of t0 (fst wv) w t s) (map fst (concat pds))) by (apply PD; exists wv, s; repeat split; assumption). apply in_map_iff in IP. destruct IP as (q & EQ & IQ).
      exists q, a, b. split; [exact IQ|]. split; [|repeat split; try assumption; apply X]. rewrite EQ, <- samples_scaled. exact A.
    + intros (q & a & b & IQ & A & NE & SG & X). destruct (proj1 (PD (fst q)) (in_map fst _ _ IQ)) as (wv & s & I1 & I2 & EQ). exists wv, (window_fb t0 (normalise_y (fst wv) yz ua) w t s), a, b. split; [exact I1|]. split; [unfold windows; apply in_map_iff; exists s; split; [reflexivity|exact I2]|]. split; [|repeat split; try assumption; apply X].
      rewrite EQ, <- samples_scaled in A. exact A.
Qed.
End Times.
Print Assumptions C58_times.
