(** C75: the theorems about data and open eyes with samples joined by lines, as
    by default. *)
From Coq Require Import ZArith Reals Bool List Lia Lra.
Import ListNotations.
From Verif Require Import Base Num RBool DrawSpec LinesModel LinesSpec LinesProofs LinesHitsProofs StatsModel MaskModel MaskProofs EyeModel EyeSpec EyeProofs EyeRProofs EyeProps UncertainProofs Pam2Model Pam2Spec Pam2Proofs Pam2Props MathModel EyeImageModel EyeRunModel EyeRunSpec EyeRunProofs EyeReportSpec EyeReportProps EyeTimesProps EyeImageSpec EyeImageProps EyeDataSpec EyeDataProps EyeClockProps EyeLevelsProps EyeOpenSpec EyeOpenProps EyeEdgesSpec EyeEdgesProps EyeWideSpec EyeWideProofs.
From Verif Require CdrModel CdrSpec EyeTrackProps.
From Verif Require Import EyeTrackProps EyeWideProps EyeLinesProps.
Local Open Scope R_scope.

Section Lines.
Variable round6 : R -> R.
Variable fit : nat -> list R -> result (list (R * R * R)).
Variable aic : list (R * R * R) -> list R -> R.
Variable new_cdr : R -> cdr.
Variable percentile : list R -> R -> R.
Variable cast : R -> Z.
Variable draw : drawing.
Let completed := completed round6 fit aic new_cdr percentile cast.
Let find_levels := find_levels round6 fit aic.
(** C67_calculated, with the data reported (C67_data). *)
Theorem C75_calculated e l edges t k period near jitter sent : find_levels (e_config e) (all_samples (e_waveforms e)) false = Ok l -> low_to k <= l_half l < high_from k ->
  e_clock_edges e = Some edges -> symbol_period edges = Ok (Some t) -> (forall p, is_period edges p -> 0 < p) -> 0 < e_t_delta e ->
  (length (waves (e_waveforms e)) <= length edges)%nat -> (forall w, In w (waves (e_waveforms e)) -> fst w <> []) ->
  usable_mask draw k period (Rabs (t - period)) e -> (1 <= e_resolution e)%Z -> c_skip_measures (e_config e) = false ->
  - (1 / 2) <= c_edge_lower (e_config e) < 3 / 2 -> - (1 / 2) <= c_edge_upper (e_config e) < 3 / 2 ->
  101 / 100 * e_t_delta e / t <= c_level_width (e_config e) < 1 -> e_t_delta e <= c_cross_width (e_config e) * t -> c_cross_width (e_config e) <= 1 ->
  3 * e_t_delta e + 2 * jitter < period -> jitter + e_t_delta e / 2 + Rabs (t - period) + c_level_width (e_config e) * t / 2 <= near ->
  let records := combine (waves (e_waveforms e)) edges in
  Forall2 (record_of k period near jitter (e_t_delta e)) records sent ->
  has_symbol t (e_t_delta e) records sent (fun p => cur p = true) -> has_symbol t (e_t_delta e) records sent (fun p => cur p = false) ->
  has_symbol t (e_t_delta e) records sent (fun p => prev p <> cur p) ->
  exists m enough, forall fuel, (enough <= fuel)%nat -> exists e1, completed fuel draw false e m e1 edges t /\ reports_data e1 m k t (e_t_delta e) records sent.
Proof.
  intros FL HALF CE SP PP TD LE NE UM RS SK EL EU LW CW CW1 G NEAR records RO H1 H0 HX.
  destruct (C67_calculated round6 fit aic new_cdr percentile cast 0 draw (cloud true e) l edges t k period near jitter sent FL HALF CE SP PP TD LE NE UM RS eq_refl SK EL EU LW CW CW1 G NEAR RO H1 H0 HX) as (m & e0 & CO & WD).
  destruct (C75_only_picture round6 fit aic new_cdr percentile cast draw 0 false _ m e0 edges t (c_point_cloud (e_config e)) CO ltac:(cbn [cloud set_config e_resolution]; lia)) as (enough & H).
  exists m, enough. intros fuel F. destruct (H fuel F) as (e1 & C1 & _). rewrite cloud_twice, cloud_same in C1. exists e1. split; [exact C1|].
  change (width (cloud true e) t) with (width e t) in WD. change (c_level_width (e_config (cloud true e))) with (c_level_width (e_config e)) in WD.
  exact (C67_data round6 fit aic new_cdr percentile cast fuel draw false e m e1 edges t l k period near jitter sent C1 SK ltac:(rewrite WD; lra) FL HALF G ltac:(rewrite WD; exact NEAR) RO).
Qed.
(** C74_open. *)
Theorem C75_open e k period near m' (sent : list (signal * (Z * Z * list Z))) sort n_comp compiled t0 resampled h :
  averages fit -> (forall j l, (1 <= j <= 2)%nat -> l <> [] -> exists m, fit j l = Ok m) -> wide_open e k ->
  (forall l, find_levels (e_config e) (all_samples (e_waveforms e)) false = Ok l -> l_low_snr l = false) ->
  e_clock_edges e = None -> e_clocks e = None ->
  (forall es, recovery new_cdr (e_config e) es = CdrModel.run Int_part sort n_comp compiled false (Some t0) es resampled) -> CdrSpec.sorts sort -> (200000 <= n_comp)%Z -> 0 < t0 <= 900 ->
  99 / 100 * t0 <= period <= 101 / 100 * t0 -> near <= period / 2 -> m' <= 48 / 10 ->
  Forall2 (fun w r => let '(s, (n0, n1, ns)) := r in smooth_record (c_polarity (e_config e)) k period near (e_t_delta e) w s n0 n1 ns /\ often m' n_comp ns) (waves (e_waveforms e)) sent ->
  0 < e_t_delta e -> EyeDataProps.usable_mask draw k period (2 * (period / 2 - near + e_t_delta e)) e -> (1 <= e_resolution e)%Z -> c_skip_measures (e_config e) = false ->
  - (1 / 2) <= c_edge_lower (e_config e) < 3 / 2 -> - (1 / 2) <= c_edge_upper (e_config e) < 3 / 2 ->
  let jitter := period / 2 - near + e_t_delta e in
  let off := (7 / 2 * (m' + 2 / 25) + 5 / 2) * jitter in
  let wd := c_level_width (e_config e) in
  101 / 100 * e_t_delta e <= wd * (period - 2 * jitter) -> wd < 1 -> e_t_delta e <= c_cross_width (e_config e) * (period - 2 * jitter) -> c_cross_width (e_config e) <= 1 ->
  25 * jitter <= period -> (7 * (m' + 2 / 25) + 7) * jitter < period -> 3 * e_t_delta e + 2 * off < period ->
  off + e_t_delta e / 2 + 2 * jitter + h * (period + 2 * jitter) <= near -> wd / 2 <= h -> 3 * e_t_delta e <= h * (period - 2 * jitter) ->
  let sends P := exists s n0 n1 ns n, In (s, (n0, n1, ns)) sent /\ (hd 0 ns <= n < last ns 0)%Z /\ (n0 + 3 <= n <= n1 - 3)%Z /\ P (pattern s n) in
  sends (fun p => cur p = true) -> sends (fun p => cur p = false) -> sends (fun p => prev p <> cur p) ->
  (exists s n0 n1 ns, In (s, (n0, n1, ns)) sent /\ (3 <= last ns 0 - hd 0 ns)%Z) ->
  exists m edges t my u0 ua uc mt enough, (forall fuel, (enough <= fuel)%nat -> exists e1, completed fuel draw false e m e1 edges t) /\ Rabs (t - period) <= 2 * jitter
    /\ in_y m = Some my /\ m_y_0 my = Some u0 /\ m_amp my = Some ua /\ m_y_cross my = Some uc /\ in_t m = Some mt
    /\ let low := value u0 in let amp := value ua in
       let clear x := clear_of (low_to k) (high_from k) (amp * c_time_height (e_config e)) (low + amp * x) in
       low_from k <= low <= low_to k /\ high_from k <= low + amp <= high_to k
       /\ (clear_of (low_to k) (high_from k) (amp * c_time_height (e_config e)) (value uc) -> crossings_within t ((1 / 2 - h) * t) mt)
       /\ edges_within clear (c_edge_lower (e_config e)) (c_edge_upper (e_config e)) t ((1 / 2 - h) * t) mt
       /\ (2 * low_to k < low_from k + high_from k -> low_to k + high_to k < 2 * high_from k -> walls_beyond (h - e_t_delta e / t) (bathtub_curve m))
       /\ (forall bottom top mk mc j outlines, (forall wv v, In wv (waves (e_waveforms e)) -> In v (snd wv) -> bottom <= v <= top) ->
             e_mask e = Some mk -> mask_convert mk amp t = Ok mc -> (j <= 2000)%nat -> let f := IZR (1000 - Z.of_nat j) / 1000 in
             mask_adjusted mc f = Ok outlines -> Forall (fits_in (h - e_t_delta e / t) (low_to k) (high_from k) bottom top low amp) outlines ->
             exists margin, mask_margin m = Some margin /\ f <= margin <= 1 /\ (0 <= f -> n_sym_bad m = Some 0%nat)).
Proof.
  intros AV FT WO SNR CE CC RE SO NC T0 TR NH M5 SA TD UM RS SK EL EU jitter off wd LW LW1 CW CW1 J25 JM G2 NEAR WH HH sends S1 S0 SX LONG.
  destruct (C74_open round6 fit aic new_cdr percentile cast 0 draw (cloud true e) k period near m' sent sort n_comp compiled t0 resampled h AV FT WO SNR CE CC RE SO NC T0 TR NH M5 SA TD UM RS eq_refl SK EL EU LW LW1 CW CW1 J25 JM G2 NEAR WH HH S1 S0 SX LONG)
    as (m & e0 & edges & t & my & u0 & ua & uc & mt & CO & REST).
  destruct (C75_only_picture round6 fit aic new_cdr percentile cast draw 0 false _ m e0 edges t (c_point_cloud (e_config e)) CO ltac:(cbn [cloud set_config e_resolution]; lia)) as (enough & H).
  exists m, edges, t, my, u0, ua, uc, mt, enough. split; [|exact REST]. intros fuel F. destruct (H fuel F) as (e1 & C1 & _). rewrite cloud_twice, cloud_same in C1. exists e1. exact C1.
Qed.
End Lines.
Print Assumptions C75_calculated.
Print Assumptions C75_open.

(** ** A concrete case: the waveform of C67_met, with lines.  (C74_open_met meets
    the hypotheses of C75_open, which are some of those of C74_open.) *)
Example C75_met round6 fit aic new_cdr percentile cast draw : exists e m enough,
  construct bits_wave None (Some (ListOf [(true, bits_clock)])) None 10 (Some (Some (with_cloud false bits_config'))) = Ok e
  /\ c_point_cloud (e_config e) = false
  /\ forall fuel, (enough <= fuel)%nat -> exists e1, completed round6 fit aic new_cdr percentile cast fuel draw false e m e1 [bits_clock] 4
       /\ bit_stream e1 false = Ok [[1; 0; 1; 0]%Z].
Proof.
  destruct (C67_met round6 fit aic new_cdr percentile cast 0 draw) as (e0 & m & e1 & C & _ & CO & BS).
  destruct (C75_only_picture round6 fit aic new_cdr percentile cast draw 0 false e0 m e1 [bits_clock] 4 false CO) as (enough & H); [injection C as <-; cbn; lia|].
  exists (cloud false e0), m, enough. split; [injection C as <-; reflexivity|]. split; [reflexivity|]. intros fuel F. destruct (H fuel F) as (e2 & C2 & _ & _ & SB & _). exists e2. split; [exact C2|]. rewrite <- SB. exact BS.
Qed.
