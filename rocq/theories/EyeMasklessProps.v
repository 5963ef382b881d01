(** C79: a mask affects only the results of the mask. *)
From Coq Require Import ZArith Reals Bool List Lia Lra.
Import ListNotations.
From Verif Require Import Base Num RBool StatsModel MaskModel MaskProofs EyeModel Pam2Model MathModel EyeImageModel EyeRunModel EyeRunSpec EyeRunProofs EyeReportSpec EyeReportProps EyeImageSpec EyeImageProps EyeDataProps.
Local Open Scope R_scope.

(** The same object with another mask, or none. *)
Definition remask (mk : option (mask R)) (e : eye) : eye :=
  Eye (e_waveforms e) (e_clocks e) mk (e_resolution e) (e_t_delta e) (e_config e) (e_levels e) (e_clock_edges e) (e_ties e) (e_t_sym e) (e_centers e) (e_edge_dir e) (e_measures e) (e_heatmap e) (e_calculated e) (e_converted e) (e_offenders e) (e_hits e) (e_images e).
(** The measures but for mask_margin and n_sym_bad. *)
Definition without_mask (m : measures) : measures :=
  Measures (n_sym m) (n_samples m) (transition_dist m) (in_y m) (in_t m) None None (bathtub_curve m).
(** All that is reported but for the mask. *)
Definition same_but_mask (a b : eye) : Prop :=
  (exists m n, get_measures a = Ok (Some m) /\ get_measures b = Ok (Some n) /\ without_mask m = without_mask n)
  /\ get_raw_heatmap a = get_raw_heatmap b /\ get_clock_edges a = get_clock_edges b /\ (forall nrzm, bit_stream a nrzm = bit_stream b nrzm)
  /\ exists i j, get_images a = Ok (Some i) /\ get_images b = Ok (Some j) /\ im_clean i = im_clean j /\ im_grid i = im_grid j.

Section Maskless.
Variable round6 : R -> R.
Variable fit : nat -> list R -> result (list (R * R * R)).
Variable aic : list (R * R * R) -> list R -> R.
Variable new_cdr : R -> cdr.
Variable percentile : list R -> R -> R.
Variable cast : R -> Z.
Variable fuel : nat.
Variable draw : drawing.
Let calculate := calculate round6 fit aic new_cdr percentile cast fuel draw.

Lemma measured_maskless w mk td c l t centers m dirs yz ua : measured percentile w mk td c l t centers = Ok (m, dirs, yz, ua) ->
  measured percentile w None td c l t centers = Ok (without_mask m, dirs, yz, ua).
Proof.
  unfold measured. destruct (c_skip_measures c); [intros E; injection E as <- <- <- <-; reflexivity|]. destruct (collect _ _) as [vs failed]. destruct (outcome failed); [|discriminate]. cbn [bind].
  destruct (some_value _) as [m0|]; [|discriminate]. cbn [bind]. destruct (some_value _) as [amp|]; [|discriminate]. cbn [bind]. destruct (update_levels _ _ _ _ _ _ _) as [[yz1 ua1] hf]. destruct (some_value _) as [yc|]; [|discriminate]. cbn [bind]. destruct (measure_horizontal _ _ _ _ _ _ _ _ _ _) as [h|]; [|discriminate]. cbn [bind].
  intros E. apply bind_ok in E. destruct E as ([[[offs hs] mg] bad] & _ & E). cbn [eye_sample_mask bind]. destruct (bathtub_curves _ _ _ _ _ _ _) as [cv|]; [|discriminate]. cbn [bind] in *  . injection E as <- <- <- <-. reflexivity.
Qed.
(** An eye diagram that can be calculated with a mask can be without, and
    reports the same. *)
Theorem C79_without d e m e1 : calculate d e = (Ok m, e1) -> e_converted e = None ->
  exists e2, calculate d (remask None e) = (Ok (without_mask m), e2) /\ same_but_mask e1 e2.
Proof.
  intros CA NC. destruct (calculate_inv round6 fit aic new_cdr percentile cast fuel draw d e m e1 CA) as (l & edges & t & h & dirs & im & FL & CK & SP & PL & RS & M1 & H1 & I1 & D1 & E1 & _ & C1 & _).
  unfold results in RS. destruct (Reqb (e_t_delta e) 0) eqn:TZ; [discriminate|]. apply bind_ok in RS. destruct RS as (centers & SA & RS). apply bind_ok in RS. destruct RS as ([[[m' dirs'] yz] ua] & ME & RS).
  apply bind_ok in RS. destruct RS as (h' & HM & RS). apply bind_ok in RS. destruct RS as (pr & MF & RS). apply bind_ok in RS. destruct RS as (im' & PI & RS). injection RS as -> -> -> -> PR.
  assert (PIC : exists im2, pictures cast draw (e_waveforms e) (e_resolution e) (e_t_delta e) (e_config e) t yz ua centers (without_mask m) h (e_masked e) = Ok im2 /\ im_clean im = im_clean im2 /\ im_grid im = im_grid im2).
  { unfold pictures, e_masked in *  . rewrite NC. destruct pr as [[mc offs] hs]. unfold draw_images in *  . apply bind_ok in PI. destruct PI as (cl & -> & PI). apply bind_ok in PI. destruct PI as (g & -> & PI). apply bind_ok in PI. destruct PI as ([[k1 k2] k3] & _ & PI).
    cbn [bind]. injection PI as <-. eexists. split; [reflexivity|]. split; reflexivity. }
  destruct PIC as (im2 & PI2 & G1 & G2).
  destruct (calculate_eq round6 fit aic new_cdr percentile cast fuel draw d (remask None e) l edges t (without_mask m) h dirs im2 (e_masked e) FL CK SP PL) as (e2 & CA2 & M2 & H2 & I2 & D2 & E2 & C2).
  - unfold results. change (e_t_delta (remask None e)) with (e_t_delta e). rewrite TZ. change (e_waveforms (remask None e)) with (e_waveforms e). rewrite SA. cbn [bind].
    change (e_mask (remask None e)) with (@None (mask R)). change (e_config (remask None e)) with (e_config e). rewrite (measured_maskless _ _ _ _ _ _ _ _ _ _ _ ME). cbn [bind].
    change (e_resolution (remask None e)) with (e_resolution e). change (n_sym (without_mask m)) with (n_sym m). rewrite HM. cbn [bind mask_found]. change (e_masked (remask None e)) with (e_masked e). rewrite PI2. reflexivity.
  - exists e2. split; [exact CA2|]. unfold same_but_mask, get_measures, get_raw_heatmap, get_clock_edges, bit_stream, get_images. rewrite C1, C2, M1, M2, H1, H2, D1, D2, E1, E2, I1, I2.
    split; [exists m, (without_mask m); repeat split|]. split; [reflexivity|]. split; [reflexivity|]. split; [reflexivity|]. exists im, im2. repeat split; assumption.
Qed.
(** Whatever the two masks, nothing else differs. *)
Theorem C79_masks d e mk m1 e1 m2 e2 : calculate d e = (Ok m1, e1) -> calculate d (remask mk e) = (Ok m2, e2) -> e_converted e = None ->
  without_mask m1 = without_mask m2 /\ same_but_mask e1 e2.
Proof.
  intros C1 C2 NC. destruct (C79_without d e m1 e1 C1 NC) as (e3 & C3 & (a1 & a3 & A1 & A3 & AE) & B1 & B2 & B3 & i & i3 & I1 & I3 & J1 & J2).
  destruct (C79_without d (remask mk e) m2 e2 C2 NC) as (e4 & C4 & (b2 & b4 & A2 & A4 & BE) & D1 & D2 & D3 & j & j4 & K2 & K4 & L1 & L2). change (remask None (remask mk e)) with (remask None e) in C4. rewrite C3 in C4. assert (ME : without_mask m1 = without_mask m2) by congruence. assert (e4 = e3) as -> by congruence.
  split; [exact ME|]. split; [exists a1, b2; split; [exact A1|]; split; [exact A2|]; congruence|]. split; [congruence|]. split; [congruence|]. split; [intros nrzm; rewrite B3, D3; reflexivity|]. exists i, j. split; [exact I1|]. split; [exact K2|]. assert (i3 = j4) as -> by congruence. split; congruence.
Qed.
End Maskless.
Print Assumptions C79_without.
Print Assumptions C79_masks.
Example C79_met round6 fit aic new_cdr percentile cast draw : fair (line_aa draw) -> exists e m e1 m0 e0,
  construct bits_wave None (Some (ListOf [(true, bits_clock)])) (Some bits_mask) 10 (Some (Some bits_config)) = Ok e
  /\ calculate round6 fit aic new_cdr percentile cast 0 draw false e = (Ok m, e1) /\ calculate round6 fit aic new_cdr percentile cast 0 draw false (remask None e) = (Ok m0, e0)
  /\ n_sym_bad m = Some 0%nat /\ n_sym_bad m0 = None /\ n_sym m = n_sym m0 /\ e_converted e = None.
Proof.
  intros FA. destruct (C62_witness round6 fit aic new_cdr percentile cast 0 draw FA) as (e0 & m & e1 & C & (CA & _) & MK & SK & NB).
  assert (NC : e_converted e0 = None) by (injection C as <-; reflexivity). destruct (C79_without round6 fit aic new_cdr percentile cast 0 draw false e0 m e1 CA NC) as (e2 & C2 & _).
  exists e0, m, e1, (without_mask m), e2. repeat (split; [first [assumption | reflexivity]|]). exact NC.
Qed.
