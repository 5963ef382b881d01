(** C74: what is measured of an open eye. *)
From Coq Require Import ZArith Reals Bool List Lia Lra.
Import ListNotations.
From Verif Require Import Base Num RBool DrawSpec LinesModel LinesSpec LinesProofs LinesHitsProofs StatsModel MaskModel MaskProofs EyeModel EyeSpec EyeProofs EyeRProofs EyeProps UncertainProofs Pam2Model Pam2Spec Pam2Proofs Pam2Props MathModel EyeImageModel EyeRunModel EyeRunSpec EyeRunProofs EyeReportSpec EyeReportProps EyeTimesProps EyeImageSpec EyeImageProps EyeDataSpec EyeDataProps EyeClockProps EyeLevelsProps EyeOpenSpec EyeOpenProps EyeEdgesSpec EyeEdgesProps EyeWideSpec EyeWideProofs.
From Verif Require CdrModel CdrSpec EyeTrackProps.
Local Open Scope R_scope.

Section Wide.
Variable round6 : R -> R.
Variable fit : nat -> list R -> result (list (R * R * R)).
Variable aic : list (R * R * R) -> list R -> R.
Variable new_cdr : R -> cdr.
Variable percentile : list R -> R -> R.
Variable cast : R -> Z.
Variable fuel : nat.
Variable draw : drawing.
Let find_levels := find_levels round6 fit aic.
Let completed := completed round6 fit aic new_cdr percentile cast fuel draw.

Lemma drawn_unique c l m low amp low' amp' : drawn_levels c l m low amp -> drawn_levels c l m low' amp' -> low' = low /\ amp' = amp.
Proof.
  unfold drawn_levels. destruct (c_skip_measures c); [intros (-> & ->) (-> & ->); split; reflexivity|]. intros (my & u0 & ua & A & B & C & -> & ->) (my' & u0' & ua' & A' & B' & C' & -> & ->).
  assert (my' = my) as -> by congruence. assert (u0' = u0) as -> by congruence. assert (ua' = ua) as -> by congruence. split; reflexivity.
Qed.
Lemma pds_syms (pds : list (list (list (R * R) * decision))) (syms : list (list (R * list (R * R)))) : map (map fst) pds = map (map snd) syms -> map fst (concat pds) = map snd (concat syms).
Proof. intros E. rewrite !concat_map, E. reflexivity. Qed.

(** The times at which the eye is crossed.  Let the records carry bits, with
    clock edges near the middles of successive symbols, and let the bits show for
    a share [h] of a symbol on each side of the middles, sampling and clock
    allowed for.  Let the crossing level found be clear of the values of the bits.
    Then the eye is found to be crossed within (1/2 - h) symbols of the symbol
    boundaries: this bounds the reported crossing time, its jitter, the reported
    symbol period and rate, and the width of the eye. *)
Theorem C74_crossings d e m e1 edges t l k period near jitter sent h low amp my uc : completed d e m e1 edges t -> c_skip_measures (e_config e) = false -> width e t < 1 ->
  find_levels (e_config e) (all_samples (e_waveforms e)) d = Ok l -> drawn_levels (e_config e) l m low amp -> 0 < amp ->
  Forall2 (record_of k period near jitter (e_t_delta e)) (combine (waves (e_waveforms e)) edges) sent -> 0 < h -> jitter + e_t_delta e / 2 + Rabs (t - period) + h * t <= near ->
  in_y m = Some my -> m_y_cross my = Some uc -> clear_of (low_to k) (high_from k) (amp * c_time_height (e_config e)) (value uc) ->
  exists mt, in_t m = Some mt /\ crossings_within t ((1 / 2 - h) * t) mt.
Proof.
  intros CO SK WD FL DL A RO H0 NEAR IY UC CL. unfold find_levels in FL.
  destruct (C58_times round6 fit aic new_cdr percentile cast fuel draw d e m e1 edges t CO SK WD) as (l' & syms & pds & low' & amp' & my' & uc' & w & parts & hz & cr & FL' & RS & EP & DE & DL' & IY' & UC' & WB & LN & SW & TM & IT & _).
  assert (l' = l) as -> by congruence. destruct (drawn_unique _ _ _ _ _ _ _ DL DL') as (-> & ->). assert (my' = my) as -> by congruence. assert (uc' = uc) as -> by congruence.
  pose proof CO as (_ & _ & PP & SP & TD). pose proof (period_pos edges t PP SP) as T.
  pose proof (symbols_open _ _ _ _ _ _ _ _ _ _ T NEAR RO RS) as OP. rewrite <- (pds_syms _ _ EP) in OP. rewrite Forall_forall in OP.
  assert (CL' : clear_of (low_to k) (high_from k) (amp * c_time_height (e_config e)) (low + amp * ((value uc - low) / amp))) by (replace (low + amp * ((value uc - low) / amp)) with (value uc) by (field; lra); exact CL).
  destruct TM as (HL & HR & _). exists (measure_t t hz). split; [exact IT|]. set (r := (1 / 2 - h) * t).
  assert (BL : forall x, In x (h_left hz) -> Rabs (x - 0) < 1 / 2 - h).
  { intros x I. rewrite HL in I. apply in_flat_map in I. destruct I as (ps & I & J). apply in_map_iff in I. destruct I as (q & <- & I). rewrite Rminus_0_r. exact (left_clear _ _ _ _ _ _ _ _ _ A (OP _ (in_map fst _ _ I)) CL' J). }
  assert (BR : forall x, In x (h_right hz) -> Rabs (x - 1) < 1 / 2 - h).
  { intros x I. rewrite HR in I. apply in_flat_map in I. destruct I as (ps & I & J). apply in_map_iff in I. destruct I as (q & <- & I). exact (right_clear _ _ _ _ _ _ _ _ _ A (OP _ (in_map fst _ _ I)) CL' J). }
  pose proof (fun u => near_stats t 0 _ _ u T BL) as SL. pose proof (fun u => near_stats t 1 _ _ u T BR) as SR. fold r in SL, SR. pose proof (fun x => near_range t 0 _ _ x T BL) as RG. fold r in RG.
  unfold crossings_within, measure_t. cbn [m_t_cross m_jitter_pp m_jitter_rms m_t_sym m_f_sym m_width].
  set (ul := usamples (map (fun x => x * t) (h_left hz))) in *  . set (ur := usamples (map (fun x => x * t) (h_right hz))) in *  . clearbody ul ur.
  assert (RT : 2 * r < t) by (unfold r; nra).
  split; [|split; [exact RG|split; [|split; [|split]]]].
  - intros u E. destruct (SL u E) as (X & _). rewrite Rmult_0_l, Rminus_0_r in X. exact X.
  - intros x E. destruct ul as [u|]; [|discriminate]. destruct (SL u eq_refl) as (_ & X). assert (x = StatsModel.stddev u) as -> by congruence. exact X.
  - intros u E. destruct ur as [r1|]; [|discriminate]. destruct ul as [l1|]; [|discriminate]. cbn [lift2] in E. injection E as <-. cbn [usub value]. destruct (SL _ eq_refl) as (X & _). destruct (SR _ eq_refl) as (Y & _). apply Rabs_def2 in X, Y. apply Rabs_def1; lra.
  - intros u E. destruct ur as [r1|]; [|discriminate]. destruct ul as [l1|]; [|discriminate]. cbn [lift2] in E. injection E as <-. cbn [udiv usub value]. destruct (SL _ eq_refl) as (X & _). destruct (SR _ eq_refl) as (Y & _). apply Rabs_def2 in X, Y.
    set (q := value r1 - value l1) in *  . assert (Q : t - 2 * r < q < t + 2 * r) by (unfold q; lra). assert (0 < q) by lra. assert (IQ : 0 < 1 / q) by (apply Rdiv_lt_0_compat; lra). assert (E1 : 1 / q * q = 1) by (field; lra). split; nra.
  - intros u E. destruct ur as [r1|]; [|discriminate]. destruct ul as [l1|]; [|discriminate]. cbn [lift2 lift1] in E. injection E as <-. cbn [usub uadd value]. destruct (SL _ eq_refl) as (X & X'). destruct (SR _ eq_refl) as (Y & Y'). apply Rabs_def2 in X, Y. lra.
Qed.

(** The bathtub curve: no point of its walls is in the opening (but for a sample
    period on each side), if the middle between the levels is in the gap. *)
Theorem C74_bathtub d e m e1 edges t l k period near jitter sent h low amp : completed d e m e1 edges t -> c_skip_measures (e_config e) = false -> width e t < 1 ->
  find_levels (e_config e) (all_samples (e_waveforms e)) d = Ok l -> drawn_levels (e_config e) l m low amp -> 0 < amp ->
  Forall2 (record_of k period near jitter (e_t_delta e)) (combine (waves (e_waveforms e)) edges) sent -> h <= 1 / 2 -> jitter + e_t_delta e / 2 + Rabs (t - period) + h * t <= near ->
  low_to k < low + amp / 2 < high_from k ->
  walls_beyond (h - e_t_delta e / t) (bathtub_curve m).
Proof.
  intros CO SK WD FL DL A RO H2 NEAR MID. unfold find_levels in FL.
  destruct (C58_times round6 fit aic new_cdr percentile cast fuel draw d e m e1 edges t CO SK WD) as (l' & syms & pds & low' & amp' & my' & uc' & w & parts & hz & cr & FL' & RS & EP & DE & DL' & IY' & UC' & WB & LN & SW & TM & IT & BC & CR).
  assert (l' = l) as -> by congruence. destruct (drawn_unique _ _ _ _ _ _ _ DL DL') as (-> & ->). pose proof CO as (_ & _ & PP & SP & TD). pose proof (period_pos edges t PP SP) as T.
  assert (DT : 0 < e_t_delta e / t) by (apply Rdiv_lt_0_compat; assumption).
  destruct (C49_bathtub cr) as (tl & bl & tr & br & EB & PE & _); [intros x I; apply CR in I; destruct I as (_ & _ & _ & _ & _ & _ & _ & X); exact X|].
  rewrite EB in BC. exists ([0] ++ tl ++ tr ++ [1]), ([1] ++ bl ++ br ++ [1]). split; [exact BC|].
  assert (G : forall x, In x cr -> h - e_t_delta e / t < Rabs (x - 1 / 2) <= 1 / 2).
  { intros x I. apply CR in I. destruct I as (q & p1 & p2 & IQ & AD & NE & SG & X). split; [|apply Rabs_le; lra]. destruct (Rlt_le_dec (h - e_t_delta e / t) (Rabs (x - 1 / 2))) as [L|L]; [exact L|exfalso].
    assert (IP : In (fst q) (map snd (concat syms))) by (rewrite <- (pds_syms _ _ EP); apply in_map; exact IQ). destruct (origin _ _ _ _ _ _ _ _ _ _ RO RS IP) as (rc & s & first & b & n & _ & _ & CA & J & SE).
    pose proof (symbol_open _ _ _ _ _ _ _ _ _ _ _ _ _ T NEAR CA J SE) as OP. destruct SE as (b' & lo & num & _ & _ & _ & _ & _ & EV). rewrite EV in OP, AD. apply (line_clear _ _ _ _ _ _ _ _ _ _ _ _ _ _ _ T TD A OP AD SG L). cbn [snd]. lra. }
  intros x I. cbn [app] in I. destruct I as [<-|I]; [replace (0 - 1 / 2) with (- (1 / 2)) by lra; rewrite Rabs_Ropp, Rabs_right; lra|]. rewrite app_assoc in I. apply in_app_or in I. destruct I as [I|[<-|[]]]; [|rewrite Rabs_right; lra].
  apply G. exact (Permutation.Permutation_in _ PE I).
Qed.

(** Masks: a mask adjusted by some margin whose outlines are in the opening (but
    for a sample period on each side), or above or below all samples, is not hit:
    the margin reported is at least that.  If it is not negative, no symbol is
    bad. *)
Theorem C74_mask d e m e1 edges t l k period near jitter sent h low amp bottom top mk mc j outlines : completed d e m e1 edges t -> c_skip_measures (e_config e) = false ->
  find_levels (e_config e) (all_samples (e_waveforms e)) d = Ok l -> drawn_levels (e_config e) l m low amp -> 0 < amp ->
  Forall2 (record_of k period near jitter (e_t_delta e)) (combine (waves (e_waveforms e)) edges) sent -> jitter + e_t_delta e / 2 + Rabs (t - period) + h * t <= near ->
  (forall wv v, In wv (waves (e_waveforms e)) -> In v (snd wv) -> bottom <= v <= top) ->
  e_mask e = Some mk -> mask_convert mk amp t = Ok mc -> (j <= 2000)%nat -> let f := IZR (1000 - Z.of_nat j) / 1000 in
  mask_adjusted mc f = Ok outlines -> Forall (fits_in (h - e_t_delta e / t) (low_to k) (high_from k) bottom top low amp) outlines ->
  exists margin, mask_margin m = Some margin /\ f <= margin <= 1 /\ (0 <= f -> n_sym_bad m = Some 0%nat).
Proof.
  intros CO SK FL DL A RO NEAR RG MK MC JL f AD FI. unfold find_levels in FL.
  destruct (whole _ _ _ _ _ _ _ _ _ _ _ _ _ _ CO) as (l' & centers & w & t0 & dirs & yz & ua & syms & T & FL' & SA & W & T0 & ME & _ & _ & _ & _ & RS & LS & PS & _). pose proof CO as (_ & _ & _ & _ & TD).
  assert (l' = l) as -> by congruence. destruct (drawn_unique _ _ _ _ _ _ _ DL (drawn _ _ _ _ _ _ _ _ _ _ _ _ _ FL' ME)) as (-> & ->).
  destruct (measured_inv _ _ _ _ _ _ _ _ _ _ _ _ SK ME) as (vs & m0 & am & yc & offs & hs & mg & bad & _ & _ & _ & _ & _ & _ & _ & _ & MS & MM & NB & _). rewrite MK in MS, MM, NB.
  exists mg. split; [exact MM|]. destruct (eye_sample_mask_inv _ _ _ _ _ _ _ _ _ _ _ MS) as (_ & kk & KK & EK & NEG).
  assert (LE : f <= mg).
  { apply (eye_kept _ _ _ _ _ _ _ _ _ _ _ _ _ _ _ _ MS MC W T0 JL AD). intros wv v IW IV. unfold windows in IV. apply in_map_iff in IV. destruct IV as (s & <- & IS).
    pose proof (all_inside t (e_t_delta e) edges _ _ _ SA (waves_length (e_waveforms e)) W wv s IW IS) as INS. destruct (i_width_R _ _ _ T TD W) as (W2 & _).
    pose proof (window_hits w t (e_t_delta e) t0 (normalise_y (fst wv) low amp) s outlines ltac:(lia) T TD T0 ltac:(rewrite normalise_length; exact INS) (adjusted_nonempty _ _ _ AD)) as HT. cbv zeta in HT.
    unfold is_hitting_np. rewrite (is_hitting_touches _ _ _ _ HT). destruct (all_pairs _ outlines) as [|x xs] eqn:AP; [reflexivity|exfalso].
    assert (IX : In x (all_pairs (points (window_fb t0 (normalise_y (fst wv) low amp) w t s)) outlines)) by (rewrite AP; left; reflexivity). apply all_pairs_in in IX. destruct IX as (path & a & b & c & dd & IP & I1 & I2 & _ & G1 & G2).
    change (points (window_fb t0 (normalise_y (fst wv) low amp) w t s)) with (samples_of t0 (map (fun v => (v - low) / amp) (fst wv)) w t s) in I1. rewrite samples_scaled in I1.
    assert (IQ : In (samples_of t0 (fst wv) w t s) (map snd (concat syms))). { rewrite concat_map, PS. apply in_concat. exists (map (samples_of t0 (fst wv) w t) (snd wv)). split; [apply in_map_iff; exists wv; split; [reflexivity|exact IW]|apply in_map; exact IS]. }
    destruct (origin _ _ _ _ _ _ _ _ _ _ RO RS IQ) as (rc & sg & first & bb & n & IRC & _ & CA & J & SE). pose proof (symbol_open _ _ _ _ _ _ _ _ _ _ _ _ _ T NEAR CA J SE) as OP.
    destruct SE as (b' & lo & num & _ & _ & LY & _ & _ & EV). rewrite EV in OP, I1. rewrite Forall_forall in FI.
    assert (RV : forall q, In q (view t (e_t_delta e) first b' (snd (fst rc)) lo num) -> bottom <= snd q <= top).
    { intros q I. unfold view in I. apply in_map_iff in I. destruct I as (i & <- & I). apply in_seq in I. cbn [snd]. apply in_combine_l in IRC. destruct rc as [wv' eg]. apply in_combine_l in IRC. apply (RG wv'); [exact IRC|]. apply nth_In. cbn [fst] in LY. lia. }
    pose proof (line_range _ _ _ _ _ _ _ _ A RV I1 G1) as LR. destruct (outline_clear _ _ _ _ _ _ _ _ _ _ _ A (FI _ IP) I2 G2) as [(X & Y)|[X|X]]; [|lra..].
    exact (line_clear _ _ _ _ _ _ _ _ _ _ _ _ _ _ _ T TD A OP I1 G1 X Y). }
  split; [split; [exact LE|]|]. { rewrite EK. assert (IZR (1000 - Z.of_nat kk) <= IZR 1000) by (apply IZR_le; lia). lra. }
  intros F0. rewrite NB. f_equal. destruct bad as [|bad]; [reflexivity|]. assert (mg < 0) by (apply NEG; lia). lra.
Qed.

Lemma forall2_pair {A B} (P : A -> B -> Prop) a b : Forall2 P a b -> forall x y, In (x, y) (combine a b) -> P x y.
Proof. induction 1 as [|x y a b H F IH]; intros x' y' I; [destruct I|]. cbn [combine] in I. destruct I as [I|I]; [injection I as <- <-; exact H|exact (IH _ _ I)]. Qed.
(** Edges: if moreover the edges of the data only go up, or only down, all times
    at which edges are found to cross the middle between the levels, or the lower
    or upper level set for edges, are within (1/2 - h) symbols of the symbol
    boundary: so for the starts of the bits, the lengths of low and high bits,
    their difference, and the rise and fall times. *)
Theorem C74_edges d e m e1 edges t l k period near jitter sent h low amp : completed d e m e1 edges t -> c_skip_measures (e_config e) = false -> width e t < 1 ->
  find_levels (e_config e) (all_samples (e_waveforms e)) d = Ok l -> low_to k <= l_half l < high_from k -> drawn_levels (e_config e) l m low amp -> 0 < amp ->
  Forall2 (record_of k period near jitter (e_t_delta e)) (combine (waves (e_waveforms e)) edges) sent -> Forall2 (smooth_of k period near (e_t_delta e)) (combine (waves (e_waveforms e)) edges) sent ->
  near <= period / 2 -> 3 * e_t_delta e <= h * t -> jitter + e_t_delta e / 2 + Rabs (t - period) + h * t <= near -> width e t / 2 <= h ->
  exists mt, in_t m = Some mt
    /\ edges_within (fun x => clear_of (low_to k) (high_from k) (amp * c_time_height (e_config e)) (low + amp * x)) (c_edge_lower (e_config e)) (c_edge_upper (e_config e)) t ((1 / 2 - h) * t) mt.
Proof.
  intros CO SK WD FL HALF DL A RO SM NP HH NEAR WH. unfold find_levels in FL.
  destruct (C58_times round6 fit aic new_cdr percentile cast fuel draw d e m e1 edges t CO SK WD) as (l' & syms & pds & low' & amp' & my' & uc' & w & parts & hz & cr & FL' & RS & EP & DE & DL' & IY' & UC' & WB & LN & SW & TM & IT & _).
  assert (l' = l) as -> by congruence. destruct (drawn_unique _ _ _ _ _ _ _ DL DL') as (-> & ->). pose proof CO as (_ & _ & PP & SP & TD). pose proof (period_pos edges t PP SP) as T.
  exists (measure_t t hz). split; [exact IT|]. set (r := (1 / 2 - h) * t). set (clear := fun x => clear_of (low_to k) (high_from k) (amp * c_time_height (e_config e)) (low + amp * x)).
  assert (GAP : low_to k < high_from k) by lra.
  assert (G : forall dir level x, dir <> 0%Z -> clear level -> In x (edge_times dir level (c_time_height (e_config e)) (map (fun s => edge_of (snd s)) (concat pds)) parts) -> Rabs (x - 0) < 1 / 2 - h).
  { intros dir level x DN CL I. rewrite Rminus_0_r. unfold edge_times in I. apply in_flat_map in I. destruct I as ([ed part] & I & J). cbn [fst snd] in J. destruct (Z.eqb_spec ed dir) as [->|_]; [|destruct J].
    assert (Q : exists q, In (q, part) (combine (concat pds) parts) /\ edge_of (snd q) = dir).
    { clear -I. revert parts I. induction (concat pds) as [|q l IH]; intros parts I; [destruct I|]. destruct parts as [|p parts]; [destruct I|]. cbn [map combine] in I. destruct I as [I|I]; [injection I as <- <-; exists q; split; [left; reflexivity|reflexivity]|]. destruct (IH _ I) as (q' & X & Y). exists q'. split; [right; exact X|exact Y]. }
    destruct Q as ([ps dec] & IQ & ED). pose proof (forall2_pair _ _ _ SW _ _ IQ) as SQ. cbn [fst snd] in SQ, ED. apply in_combine_l in IQ.
    assert (IP : In ps (map snd (concat syms))) by (rewrite <- (pds_syms _ _ EP); apply (in_map fst _ _ IQ)). destruct (origin _ _ _ _ _ _ _ _ _ _ RO RS IP) as (rc & s & first & b & n & IRC & F0 & CA & JJ & SE).
    rewrite Forall_forall in DE. assert (NEAR' : jitter + e_t_delta e / 2 + Rabs (t - period) + width e t * t / 2 <= near) by nra.
    pose proof (symbol_decided _ _ _ _ _ _ _ _ T NEAR' _ _ _ _ _ _ _ HALF CA JJ SE (DE _ IQ)) as DP.
    exact (edge_clear k t period near jitter (e_t_delta e) first _ s b n ps h low amp w dec part level _ x T TD A NP HH NEAR GAP CA (forall2_pair _ _ _ SM _ _ IRC first F0) JJ SE DP (LN _ IQ) WB ltac:(rewrite ED; exact DN) SQ CL J). }
  destruct TM as (_ & _ & H1 & H2 & H3 & H4 & H5 & H6).
  assert (ST : forall times dir level, times = edge_times dir level (c_time_height (e_config e)) (map (fun s => edge_of (snd s)) (concat pds)) parts -> dir <> 0%Z -> clear level -> forall u, usamples (map (fun x => x * t) times) = Some u -> Rabs (value u) < r).
  { intros times dir level -> DN CL u U. destruct (near_stats t 0 _ _ u T (fun x => G dir level x DN CL) U) as (X & _). rewrite Rmult_0_l, Rminus_0_r in X. exact X. }
  pose proof (ST _ _ _ H1 ltac:(lia)) as S1. pose proof (ST _ _ _ H2 ltac:(lia)) as S2. pose proof (ST _ _ _ H3 ltac:(lia)) as S3. pose proof (ST _ _ _ H4 ltac:(lia)) as S4. pose proof (ST _ _ _ H5 ltac:(lia)) as S5. pose proof (ST _ _ _ H6 ltac:(lia)) as S6.
  unfold edges_within, measure_t. cbn [m_t_0_start m_t_1_start m_t_0 m_t_1 m_dcd m_t_rise_start m_t_fall_start m_t_rise m_t_fall].
  set (u1 := usamples (map (fun x => x * t) (h_rise_lower hz))) in *  . set (u2 := usamples (map (fun x => x * t) (h_rise_upper hz))) in *  . set (u3 := usamples (map (fun x => x * t) (h_rise_half hz))) in *  .
  set (u4 := usamples (map (fun x => x * t) (h_fall_lower hz))) in *  . set (u5 := usamples (map (fun x => x * t) (h_fall_upper hz))) in *  . set (u6 := usamples (map (fun x => x * t) (h_fall_half hz))) in *  . clearbody u1 u2 u3 u4 u5 u6. clear - S1 S2 S3 S4 S5 S6.
  split; [|split; [exact S1|split; [exact S5|]]].
  - intros CL. specialize (S3 CL). specialize (S6 CL). split; [exact S6|]. split; [exact S3|].
    split; [|split]; intros u E; (destruct u3 as [a|]; [|destruct u6; discriminate]); (destruct u6 as [b|]; [|discriminate]); cbn [lift1 lift2] in E; injection E as <-; cbn [uadd usub udiv value]; specialize (S3 _ eq_refl); specialize (S6 _ eq_refl); apply Rabs_def2 in S3, S6; apply Rabs_def1; lra.
  - intros C1 C2. specialize (S1 C1). specialize (S2 C2). specialize (S4 C1). specialize (S5 C2).
    split; intros u E; [destruct u2 as [a|]; [|discriminate]; destruct u1 as [b|]; [|discriminate]; specialize (S2 _ eq_refl); specialize (S1 _ eq_refl); apply Rabs_def2 in S1, S2|
      destruct u4 as [a|]; [|discriminate]; destruct u5 as [b|]; [|discriminate]; specialize (S4 _ eq_refl); specialize (S5 _ eq_refl); apply Rabs_def2 in S4, S5]; cbn [lift2] in E; injection E as <-; cbn [usub value]; apply Rabs_def1; lra.
Qed.
(** With its clock given, both bits and a change in sight and enough samples, the
    calculation does complete also with a mask (as C67_calculated). *)
Theorem C74_completes e l edges t k period near jitter sent mk : find_levels (e_config e) (all_samples (e_waveforms e)) false = Ok l -> low_to k <= l_half l < high_from k ->
  e_clock_edges e = Some edges -> symbol_period edges = Ok (Some t) -> (forall p, is_period edges p -> 0 < p) -> 0 < e_t_delta e ->
  (length (waves (e_waveforms e)) <= length edges)%nat -> (forall w, In w (waves (e_waveforms e)) -> fst w <> []) ->
  e_mask e = Some mk -> (forall low high, low_from k <= low <= low_to k -> high_from k <= high <= high_to k -> exists mc, mask_convert mk (EyeDataProps.amplitude (e_config e) low high) t = Ok mc /\ adjustable mc) -> fair (line_aa draw) ->
  (1 <= e_resolution e)%Z -> c_point_cloud (e_config e) = true -> c_skip_measures (e_config e) = false ->
  - (1 / 2) <= c_edge_lower (e_config e) < 3 / 2 -> - (1 / 2) <= c_edge_upper (e_config e) < 3 / 2 ->
  101 / 100 * e_t_delta e / t <= c_level_width (e_config e) < 1 -> e_t_delta e <= c_cross_width (e_config e) * t -> c_cross_width (e_config e) <= 1 ->
  3 * e_t_delta e + 2 * jitter < period -> jitter + e_t_delta e / 2 + Rabs (t - period) + c_level_width (e_config e) * t / 2 <= near ->
  let records := combine (waves (e_waveforms e)) edges in
  Forall2 (record_of k period near jitter (e_t_delta e)) records sent ->
  has_symbol t (e_t_delta e) records sent (fun p => cur p = true) -> has_symbol t (e_t_delta e) records sent (fun p => cur p = false) ->
  has_symbol t (e_t_delta e) records sent (fun p => prev p <> cur p) ->
  exists m e1, completed false e m e1 edges t /\ width e t = c_level_width (e_config e).
Proof. exact (EyeDataProps.masked_calculated round6 fit aic new_cdr percentile cast fuel draw e l edges t k period near jitter sent mk). Qed.
(** The records that C73 speaks of, with the clock found there. *)
Theorem C74_records p k period near td off ws (sent : list (signal * (Z * Z * list Z))) edges sent' :
  Forall2 (fun w r => let '(s, (n0, n1, ns)) := r in smooth_record p k period near td w s n0 n1 ns) ws sent ->
  Forall2 (fun r s' => exists n, s' = renumbered n (fst r) period) sent sent' -> Forall2 (clocks period off) edges sent' ->
  Forall2 (record_of k period near off td) (combine ws edges) sent' /\ Forall2 (smooth_of k period near td) (combine ws edges) sent'.
Proof.
  intros SM RN. revert ws SM edges. induction RN as [|r s' sent sent' (n & ->) RN IH]; intros ws SM edges CK; inversion CK as [|clk ? edges' ? C1 CK']; subst; inversion SM as [|w ? ws' ? S1 SM']; subst; [split; constructor|].
  destruct (IH ws' SM' edges' CK') as (A & B). destruct r as (s & (n0 & n1) & ns). destruct S1 as (first & FT & CA & (MO1 & MO2) & _). cbn [combine fst].
  assert (F0 : forall f j, nth_error (fst w) 0 = Some f -> (j < length (snd w))%nat -> f = first). { intros f j E J. rewrite FT in E. destruct (snd w) as [|v y]; [cbn in J; lia|]. cbn in E. injection E as <-. lra. }
  assert (MID : forall i, middle period (renumbered n s period) i = middle period s (i + n)). { intros i. unfold middle, renumbered. cbn [fst]. rewrite plus_IZR. unfold middle. lra. }
  assert (BIT : forall i, snd (renumbered n s period) i = snd s (i + n)%Z) by reflexivity.
  split; (constructor; [|assumption]).
  - split; [|exact C1]. cbn [fst snd]. intros f E j i J N. assert (f = first) as -> by (exact (F0 f j E J)). rewrite MID in N. rewrite BIT. exact (CA j _ J N).
  - intros f E. cbn [fst snd] in *  . split.
    + intros j i v V BT S. assert (f = first) as -> by (apply (F0 f j E); apply nth_error_Some; congruence). rewrite !MID in BT. rewrite !BIT in *  . replace (i - 1 + n)%Z with (i + n - 1)%Z in BT, S by lia. exact (MO1 j _ v V BT S).
    + intros j j' i v v' V V' L BT BT' S. assert (f = first) as -> by (apply (F0 f j E); apply nth_error_Some; congruence). rewrite !MID in BT, BT'. rewrite !BIT in *  . replace (i - 1 + n)%Z with (i + n - 1)%Z in BT, BT', S by lia. exact (MO2 j j' _ v v' V V' L BT BT' S).
Qed.
(** Nothing configured about levels and no clock given: C73_open, with what is
    reported of the times and of a mask. *)
Theorem C74_open e k period near m' (sent : list (signal * (Z * Z * list Z))) sort n_comp compiled t0 resampled h :
  averages fit -> (forall j l, (1 <= j <= 2)%nat -> l <> [] -> exists m, fit j l = Ok m) -> wide_open e k ->
  (forall l, find_levels (e_config e) (all_samples (e_waveforms e)) false = Ok l -> l_low_snr l = false) ->
  e_clock_edges e = None -> e_clocks e = None ->
  (forall es, recovery new_cdr (e_config e) es = CdrModel.run Int_part sort n_comp compiled false (Some t0) es resampled) -> CdrSpec.sorts sort -> (200000 <= n_comp)%Z -> 0 < t0 <= 900 ->
  99 / 100 * t0 <= period <= 101 / 100 * t0 -> near <= period / 2 -> m' <= 48 / 10 ->
  Forall2 (fun w r => let '(s, (n0, n1, ns)) := r in smooth_record (c_polarity (e_config e)) k period near (e_t_delta e) w s n0 n1 ns /\ often m' n_comp ns) (waves (e_waveforms e)) sent ->
  0 < e_t_delta e -> EyeDataProps.usable_mask draw k period (2 * (period / 2 - near + e_t_delta e)) e -> (1 <= e_resolution e)%Z -> c_point_cloud (e_config e) = true -> c_skip_measures (e_config e) = false ->
  - (1 / 2) <= c_edge_lower (e_config e) < 3 / 2 -> - (1 / 2) <= c_edge_upper (e_config e) < 3 / 2 ->
  let jitter := period / 2 - near + e_t_delta e in
  let off := (7 / 2 * (m' + 2 / 25) + 5 / 2) * jitter in
  let wd := c_level_width (e_config e) in
  101 / 100 * e_t_delta e <= wd * (period - 2 * jitter) -> wd < 1 -> e_t_delta e <= c_cross_width (e_config e) * (period - 2 * jitter) -> c_cross_width (e_config e) <= 1 ->
  25 * jitter <= period -> (7 * (m' + 2 / 25) + 7) * jitter < period -> 3 * e_t_delta e + 2 * off < period ->
  off + e_t_delta e / 2 + 2 * jitter + h * (period + 2 * jitter) <= near -> wd / 2 <= h -> 3 * e_t_delta e <= h * (period - 2 * jitter) ->
  let sends P := exists s n0 n1 ns n, In (s, (n0, n1, ns)) sent /\ (hd 0 ns <= n < last ns 0)%Z /\ (n0 + 3 <= n <= n1 - 3)%Z /\ P (pattern s n) in
  sends (fun p => cur p = true) -> sends (fun p => cur p = false) -> sends (fun p => prev p <> cur p) ->
  (exists s n0 n1 ns, In (s, (n0, n1, ns)) sent /\ (3 <= last ns 0 - hd 0 ns)%Z) ->
  exists m e1 edges t my u0 ua uc mt, completed false e m e1 edges t /\ Rabs (t - period) <= 2 * jitter
    /\ in_y m = Some my /\ m_y_0 my = Some u0 /\ m_amp my = Some ua /\ m_y_cross my = Some uc /\ in_t m = Some mt
    /\ let low := value u0 in let amp := value ua in
       let clear x := clear_of (low_to k) (high_from k) (amp * c_time_height (e_config e)) (low + amp * x) in
       low_from k <= low <= low_to k /\ high_from k <= low + amp <= high_to k
       /\ (clear_of (low_to k) (high_from k) (amp * c_time_height (e_config e)) (value uc) -> crossings_within t ((1 / 2 - h) * t) mt)
       /\ edges_within clear (c_edge_lower (e_config e)) (c_edge_upper (e_config e)) t ((1 / 2 - h) * t) mt
       /\ (2 * low_to k < low_from k + high_from k -> low_to k + high_to k < 2 * high_from k -> walls_beyond (h - e_t_delta e / t) (bathtub_curve m))
       /\ (forall bottom top mk mc j outlines, (forall wv v, In wv (waves (e_waveforms e)) -> In v (snd wv) -> bottom <= v <= top) ->
             e_mask e = Some mk -> mask_convert mk amp t = Ok mc -> (j <= 2000)%nat -> let f := IZR (1000 - Z.of_nat j) / 1000 in
             mask_adjusted mc f = Ok outlines -> Forall (fits_in (h - e_t_delta e / t) (low_to k) (high_from k) bottom top low amp) outlines ->
             exists margin, mask_margin m = Some margin /\ f <= margin <= 1 /\ (0 <= f -> n_sym_bad m = Some 0%nat)).
Proof.
  intros AV FT WO SNR CE CC RE SO NC T0 TR NH M5 SA TD UM RS PC SK EL EU jitter off wd LW LW1 CW CW1 J25 JM G2 NEAR WH HH sends S1 S0 SX LONG.
  assert (NJ : 0 <= jitter) by (unfold jitter; lra). assert (P : 0 < period) by lra. assert (HP : 0 <= h). { apply (Rmult_le_reg_r (period - 2 * jitter)); lra. }
  assert (NEAR' : off + e_t_delta e / 2 + 2 * jitter + wd * (period + 2 * jitter) / 2 <= near). { assert (wd / 2 * (period + 2 * jitter) <= h * (period + 2 * jitter)) by (apply Rmult_le_compat_r; lra). lra. }
  destruct (C73_open round6 fit aic new_cdr percentile cast fuel draw e k period near m' sent sort n_comp compiled t0 resampled AV FT WO SNR CE CC RE SO NC T0 TR NH M5 SA TD UM RS PC SK EL EU LW LW1 CW CW1 J25 JM G2 NEAR' S1 S0 SX LONG) as (m & e1 & edges & t & sent' & CO & TP & RN & CK & RD).
  fold jitter in TP. fold jitter off in CK. pose proof WO as (lo & hi & A & TH & RG & L & RP & _). destruct (C71_found round6 fit aic (e_config e) (all_samples (e_waveforms e)) false lo hi A AV FT RG L RP) as (l & FL). pose proof (SNR l FL) as QL.
  destruct (C73_thresholds round6 fit aic e k l AV WO FL QL) as (T1 & T2 & T3).
  destruct RD as (parts & _ & _ & _ & _ & _ & my & u0 & u1 & ua & IY & Y0 & Y1 & YA & B0 & B1 & EA).
  destruct (C74_records (c_polarity (e_config e)) k period near (e_t_delta e) off (waves (e_waveforms e)) sent edges sent') as (RO & SM); [|exact RN|exact CK|].
  { clear -SA. induction SA as [|w r ws sent Q SA IH]; constructor; [|exact IH]. destruct r as (s & (n0 & n1) & ns). apply Q. }
  apply Rabs_le_between in TP. assert (TT : 0 < t) by lra. assert (ATP : Rabs (t - period) <= 2 * jitter) by (apply Rabs_le; lra).
  assert (WE : width e t = wd). { unfold width, wd. apply Rmax_left. apply (Rmult_le_reg_r t); [exact TT|]. replace (101 / 100 * e_t_delta e / t * t) with (101 / 100 * e_t_delta e) by (field; lra). assert (0 < wd). { apply (Rmult_lt_reg_r (period - 2 * jitter)); lra. } fold wd. assert (wd * (period - 2 * jitter) <= wd * t) by (apply Rmult_le_compat_l; lra). lra. }
  assert (NR : off + e_t_delta e / 2 + Rabs (t - period) + h * t <= near). { assert (h * t <= h * (period + 2 * jitter)) by (apply Rmult_le_compat_l; lra). lra. }
  assert (AM : 0 < value ua) by lra. assert (W1 : width e t < 1) by (rewrite WE; exact LW1).
  assert (DL : drawn_levels (e_config e) l m (value u0) (value ua)). { unfold drawn_levels. rewrite SK. destruct A as (A0 & A1). exists my, u0, ua. rewrite A0, A1. repeat (split; [assumption || reflexivity|]). reflexivity. }
  assert (H0 : 0 < h). { apply (Rmult_lt_reg_r (period - 2 * jitter)); lra. } assert (O0 : 0 <= off). { destruct (Rle_lt_dec 0 off) as [Q|Q]; [exact Q|exfalso]. destruct LONG as (s & n0 & n1 & ns & I & LG). assert (OF : often m' n_comp ns). { clear -SA I. induction SA as [|w r ws sent Q SA IH]; [destruct I|]. destruct I as [->|I]; [apply Q|exact (IH I)]. } destruct OF as (L2 & _ & DU & _). assert (MP : 0 <= m'). { apply le_INR in L2. cbn [INR] in L2. assert (3 <= IZR (last ns 0%Z - hd 0%Z ns)) by (apply (IZR_le 3); lia). destruct (Rle_lt_dec 0 m') as [X|X]; [exact X|]. assert (m' * (INR (length ns) - 1) <= 0) by nra. lra. } unfold off in Q. nra. }
  assert (H2 : h <= 1 / 2). { destruct (Rle_lt_dec h (1 / 2)) as [Q|Q]; [exact Q|exfalso]. assert (1 / 2 * period <= h * (period + 2 * jitter)); [|lra]. apply Rle_trans with (h * period); [apply Rmult_le_compat_r; lra|apply Rmult_le_compat_l; lra]. }
  destruct (C58_times round6 fit aic new_cdr percentile cast fuel draw false e m e1 edges t CO SK W1) as (_ & _ & _ & _ & _ & my' & uc & _ & _ & _ & _ & _ & _ & _ & _ & _ & IY' & UC & _). assert (my' = my) as -> by congruence.
  destruct (C74_edges false e m e1 edges t l k period near off sent' h (value u0) (value ua) CO SK W1 FL ltac:(lra) DL AM RO SM NH) as (mt & IT & ED); [|exact NR|rewrite WE; exact WH|].
  { assert (h * (period - 2 * jitter) <= h * t) by (apply Rmult_le_compat_l; lra). lra. }
  exists m, e1, edges, t, my, u0, ua, uc, mt. split; [exact CO|]. split; [exact ATP|]. repeat (split; [assumption|]). cbv zeta. split; [lra|]. split; [|split; [exact ED|split]].
  - intros CL. destruct (C74_crossings false e m e1 edges t l k period near off sent' h (value u0) (value ua) my uc CO SK W1 FL DL AM RO H0 NR IY UC CL) as (mt' & IT' & CW'). assert (mt' = mt) as -> by congruence. exact CW'.
  - intros G1 G3. assert (MID : low_to k < value u0 + value ua / 2 < high_from k) by lra. exact (C74_bathtub false e m e1 edges t l k period near off sent' h (value u0) (value ua) CO SK W1 FL DL AM RO H2 NR MID).
  - intros bottom top mk mc j outlines BT MK MC JL AD FI. exact (C74_mask false e m e1 edges t l k period near off sent' h (value u0) (value ua) bottom top mk mc j outlines CO SK FL DL AM RO NR BT MK MC JL AD FI).
Qed.
End Wide.
Print Assumptions C74_crossings.
Print Assumptions C74_bathtub.
Print Assumptions C74_mask.
Print Assumptions C74_edges.
Print Assumptions C74_completes.
Print Assumptions C74_records.
Print Assumptions C74_open.
