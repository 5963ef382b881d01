(** C77: the resolution of the images affects only the images. *)
From Coq Require Import ZArith Reals Bool List Lia Lra.
Import ListNotations.
From Verif Require Import Base Num RBool StatsModel MaskModel MaskProofs EyeModel EyeSpec EyeProofs EyeRProofs EyeProps Pam2Model Pam2Spec MathModel EyeImageModel EyeImageSpec EyeImageProofs EyeRunModel EyeRunSpec EyeRunProofs EyeRunPeriod EyeReportSpec EyeReportProps EyeImageProps EyeLinesProps.
Local Open Scope R_scope.

(** The same object with another resolution. *)
Definition resolve (r : Z) (e : eye) : eye :=
  Eye (e_waveforms e) (e_clocks e) (e_mask e) r (e_t_delta e) (e_config e) (e_levels e) (e_clock_edges e) (e_ties e) (e_t_sym e) (e_centers e) (e_edge_dir e) (e_measures e) (e_heatmap e) (e_calculated e) (e_converted e) (e_offenders e) (e_hits e) (e_images e).

Section Res.
Variable round6 : R -> R.
Variable fit : nat -> list R -> result (list (R * R * R)).
Variable aic : list (R * R * R) -> list R -> R.
Variable new_cdr : R -> cdr.
Variable percentile : list R -> R -> R.
Variable cast : R -> Z.
Variable draw : drawing.
Let completed := completed round6 fit aic new_cdr percentile cast.

Lemma found_images_ok res h el eu mc mk mg paths adj margin hs offs cnt td t yz ua ws w t0 : (1 <= res)%Z -> - (1 / 2) <= el < 3 / 2 -> - (1 / 2) <= eu < 3 / 2 -> 0 < t -> 0 < td ->
  get_i_width int_of_float t td = Ok w -> window_axis w t td = Ok t0 -> (forall wv s, In wv ws -> In s (snd wv) -> fitting w (fst wv) s) ->
  fair (line_aa draw) -> mask_convert mk ua t = Ok mc -> mask_paths mc = Ok paths -> mask_adjusted mc margin = Ok adj -> eye_sample_mask int_of_float (Some mk) td t yz ua ws = Ok (offs, hs, mg, cnt) ->
  exists im, draw_images draw cast res h el eu (Some mc) (Some margin) hs offs td t yz ua ws = Ok im.
Proof.
  intros RP EL EU T D W T0 FI FA MC MP AJ SM. unfold draw_images, clean_image. destruct (Z.eqb_spec res 0); [lia|]. cbn [bind]. destruct (EyeRunPeriod.grid_ok res el eu RP EL EU) as (g & ->). cbn [bind].
  rewrite MP. cbn [bind]. destruct (paths_spec draw res paths) as (i1 & -> & _). cbn [bind]. rewrite AJ. cbn [bind]. destruct (paths_spec draw res adj) as (i2 & -> & _). cbn [bind]. destruct (hits_spec draw res hs) as (hit & -> & HI). cbn [bind].
  destruct (eye_found _ _ _ _ _ _ _ _ _ _ _ _ _ _ W T0 MC MP SM) as (_ & hls & L1 & L2 & HS & FO).
  destruct (HI 0%Z 0%Z) as (a & EA & AA & _); [lia..|].
  destruct (offenders_spec draw cast td t yz ua res w t0 FA W T0 ws offs 0%Z 0%Z hit (0 < a) ltac:(lia) ltac:(lia) L1) as (off & -> & _).
  - intros j wv o i N1 N2 J. assert (J' : In i o) by (rewrite <- (firstn_skipn 2 o); apply in_or_app; left; exact J). destruct (nth_error hls j) as [hl|] eqn:N3; [|exfalso; revert N3; apply nth_error_Some; rewrite <- L2; apply nth_error_Some; intros NN; exact (eq_ind None (fun z => match z with None => True | Some _ => False end) I (Some wv) (eq_trans (eq_sym NN) N1))].
    destruct (proj1 (Forall2_at _ _ _ (proj1 (FO j wv o hl N1 N2 N3))) i J') as (hh & _ & (s & NS & _)). exists s. split; [exact NS|exact (FI _ _ (nth_error_In _ _ N1) (nth_error_In _ _ NS))].
  - rewrite EA. split; [reflexivity|]. cbn [nth firstn]. split; [destruct AA as [-> | ->]; lra|]. split; [tauto|reflexivity].
  - cbn [bind]. eexists. reflexivity.
Qed.
(** Any resolution can be had, with the same results. *)
Theorem C77_resolution fuel d e m e1 edges t r : completed fuel draw d e m e1 edges t -> (1 <= r)%Z -> e_converted e = None ->
  - (1 / 2) <= c_edge_lower (e_config e) < 3 / 2 -> - (1 / 2) <= c_edge_upper (e_config e) < 3 / 2 -> fair (line_aa draw) ->
  exists enough, forall fuel', (enough <= fuel')%nat ->
  exists e2, completed fuel' draw d (resolve r e) m e2 edges t
    /\ get_measures e2 = get_measures e1 /\ get_clock_edges e2 = get_clock_edges e1 /\ forall nrzm, bit_stream e2 nrzm = bit_stream e1 nrzm.
Proof.
  intros (CA & GC & PP & SP & TD) RP NC EL EU FA. pose proof (period_pos edges t PP SP) as T.
  destruct (calculate_inv round6 fit aic new_cdr percentile cast fuel draw d e m e1 CA) as (l & edges' & t' & h & dirs & im & FL & CK & SP' & PL & RS & M1 & H1 & I1 & D1 & E1 & _ & C1 & _).
  unfold get_clock_edges in GC. rewrite C1, E1 in GC. assert (edges' = edges) as -> by congruence. assert (t' = t) as -> by congruence. clear SP' GC.
  unfold results in RS. destruct (Reqb (e_t_delta e) 0) eqn:TZ; [discriminate|]. apply bind_ok in RS. destruct RS as (centers & SA & RS). apply bind_ok in RS. destruct RS as ([[[m' dirs'] yz] ua] & ME & RS).
  apply bind_ok in RS. destruct RS as (h' & HM & RS). apply bind_ok in RS. destruct RS as (pr & MF & RS). apply bind_ok in RS. destruct RS as (im' & PI & RS). injection RS as -> -> -> -> PR.
  destruct (heat_ends cast t (e_t_delta e) yz ua edges _ centers r (c_point_cloud (e_config e)) (n_sym m) T TD ltac:(lia) SA (waves_length (e_waveforms e))) as (enough & HE). exists enough. intros fuel' F. destruct (HE fuel' F) as (h2 & HM2).
  assert (PIC : exists im2, pictures cast draw (e_waveforms e) r (e_t_delta e) (e_config e) t yz ua centers m h2 pr = Ok im2).
  { assert (NM : pr = e_masked e -> exists im2, pictures cast draw (e_waveforms e) r (e_t_delta e) (e_config e) t yz ua centers m h2 pr = Ok im2) by (intros ->; unfold pictures, e_masked; rewrite NC; apply images_ok; assumption).
    unfold mask_found in MF. destruct (e_mask e) as [mk|] eqn:MK; [|apply NM; congruence]. destruct (c_skip_measures (e_config e)); [apply NM; congruence|]. clear NM.
    apply bind_ok in MF. destruct MF as (mc & MC & MF). apply bind_ok in MF. destruct MF as ([[[offs hs] mg] bd] & SM & MF). injection MF as <-. unfold pictures in *  .
    unfold draw_images in PI. apply bind_ok in PI. destruct PI as (cl & _ & PI). apply bind_ok in PI. destruct PI as (g & _ & PI). apply bind_ok in PI. destruct PI as (k & PI & _). apply bind_ok in PI. destruct PI as (paths & MP & PI). apply bind_ok in PI. destruct PI as (k1 & _ & PI).
    apply bind_ok in PI. destruct PI as (margin & MG & PI). destruct (mask_margin m) as [mgn|]; [injection MG as ->|discriminate]. apply bind_ok in PI. destruct PI as (adj & AJ & _).
    destruct (i_width_ok t (e_t_delta e) T TD) as (w & W & W2). destruct (window_axis_ok w t (e_t_delta e) W2) as (t0 & T0).
    exact (found_images_ok r h2 _ _ mc mk mg paths adj margin hs offs bd (e_t_delta e) t yz ua _ w t0 RP EL EU T TD W T0 (all_inside t (e_t_delta e) edges _ _ _ SA (waves_length (e_waveforms e)) W) FA MC MP AJ SM). }
  destruct PIC as (im2 & PI2).
  destruct (calculate_eq round6 fit aic new_cdr percentile cast fuel' draw d (resolve r e) l edges t m h2 dirs im2 pr FL CK SP PL) as (e2 & CA2 & M2 & H2 & I2 & D2 & E2 & C2).
  - unfold results. change (e_t_delta (resolve r e)) with (e_t_delta e). rewrite TZ. change (e_waveforms (resolve r e)) with (e_waveforms e). rewrite SA. cbn [bind].
    change (e_mask (resolve r e)) with (e_mask e). change (e_config (resolve r e)) with (e_config e). rewrite ME. cbn [bind]. change (e_resolution (resolve r e)) with r. rewrite HM2. cbn [bind]. change (e_masked (resolve r e)) with (e_masked e). rewrite MF. cbn [bind]. rewrite PI2. reflexivity.
  - exists e2. split; [|split; [|split]].
    + split; [exact CA2|]. split; [unfold get_clock_edges; rewrite C2, E2; reflexivity|]. split; [exact PP|]. split; [exact SP|exact TD].
    + unfold get_measures. rewrite C1, C2, M1, M2. reflexivity.
    + unfold get_clock_edges. rewrite C1, C2, E1, E2. reflexivity.
    + intro nrzm. unfold bit_stream. rewrite C1, C2, D1, D2. reflexivity.
Qed.
End Res.
Print Assumptions C77_resolution.
Example C77_met round6 fit aic new_cdr percentile cast draw : fair (line_aa draw) -> forall r, (1 <= r)%Z -> exists e m enough,
  construct bits_wave None (Some (ListOf [(true, bits_clock)])) (Some bits_mask) r (Some (Some bits_config)) = Ok e
  /\ forall fuel, (enough <= fuel)%nat -> exists e1, completed round6 fit aic new_cdr percentile cast fuel draw false e m e1 [bits_clock] 4 /\ n_sym_bad m = Some 0%nat.
Proof.
  intros FA r RP. destruct (C62_witness round6 fit aic new_cdr percentile cast 0 draw FA) as (e0 & m & e1 & C & CO & MK & SK & NB).
  destruct (C77_resolution round6 fit aic new_cdr percentile cast draw 0 false e0 m e1 [bits_clock] 4 r CO RP) as (enough & H); [injection C as <-; reflexivity|injection C as <-; cbn; lra|injection C as <-; cbn; lra|exact FA|].
  exists (resolve r e0), m, enough. split.
  - unfold construct in *  . cbn in C |- *  . destruct (r <? 0)%Z eqn:Q; [apply Z.ltb_lt in Q; lia|]. injection C as <-. reflexivity.
  - intros fuel F. destruct (H fuel F) as (e2 & C2 & _). exists e2. split; [exact C2|exact NB].
Qed.
