(** C78: debug plots and the results. *)
From Coq Require Import ZArith Reals Bool List Lia Lra Sorted.
Import ListNotations.
From Verif Require EyeProofs EyeRunPeriod CdrModel UncertainProofs.
From Verif Require Import Base Num RBool StatsModel MathModel EyeModel EyeImageModel EyeRunModel EyeRunSpec EyeRunProofs EyeRunPeriod EyeRunProps EyeReportProps EyeLevelsProofs EyeLevelsProps EyeOpenSpec EyeOpenProofs.
Local Open Scope R_scope.
Local Open Scope result_scope.

(** Both levels are configured. *)
Definition levels_given (c : config) : Prop := c_y_0 c <> None /\ c_y_1 c <> None.
(** The configured levels are apart by at least twice the noise that is found at
    the levels of the waveforms. *)
Definition quiet round6 fit aic (c : config) (y : list R) : Prop :=
  forall v0 v1 u0 u1, c_y_0 c = Some v0 -> c_y_1 c = Some v1 -> runner_levels round6 fit aic y (c_levels_n_max c) = Ok (u0, u1) ->
  StatsModel.stddev u1 + StatsModel.stddev u0 = 0 \/ 2 <= (v1 - v0) / (StatsModel.stddev u1 + StatsModel.stddev u0).

Section Debug.
Variable round6 : R -> R.
Variable fit : nat -> list R -> result (list (R * R * R)).
Variable aic : list (R * R * R) -> list R -> R.
Variable new_cdr : R -> cdr.
Variable percentile : list R -> R -> R.
Variable cast : R -> Z.
Variable fuel : nat.
Variable draw : drawing.
Let calculate := calculate round6 fit aic new_cdr percentile cast fuel draw.
Let find_levels := find_levels round6 fit aic.

Lemma levels_quiet c y l : find_levels c y true = Ok l -> exists l', find_levels c y false = Ok l' /\ l_zero l' = l_zero l /\ l_ua l' = l_ua l /\ l_half l' = l_half l
  /\ l_rising l' = l_rising l /\ l_falling l' = l_falling l /\ (~ levels_given c \/ quiet round6 fit aic c y -> l_low_snr l' = l_low_snr l).
Proof.
  unfold find_levels, EyeRunModel.find_levels, levels_given, quiet. intros E. destruct (c_y_0 c) as [v0|] eqn:Y0; [destruct (c_y_1 c) as [v1|] eqn:Y1|].
  - destruct (runner_levels _ _ _ _ _) as [[u0 u1]|] eqn:RL; [|discriminate]. cbn [bind] in *  . injection E as <-. eexists. split; [reflexivity|]. cbn [l_zero l_ua l_half l_rising l_falling l_low_snr]. do 5 (split; [cbn; reflexivity|]).
    intros [H|H]; [exfalso; apply H; split; discriminate|]. specialize (H v0 v1 u0 u1 eq_refl eq_refl eq_refl). cbn [StatsModel.stddev]. rewrite (proj2 (Reqb_true (0 + 0) 0)) by lra.
    destruct (Reqb (StatsModel.stddev u1 + StatsModel.stddev u0) 0) eqn:Z; [reflexivity|]. apply Reqb_false in Z. destruct H as [H|H]; [contradiction|]. symmetry. cbn [ult udiv usub value oval]. apply Rltb_false. exact H.
  - exists l. split; [exact E|]. repeat split.
  - exists l. split; [exact E|]. repeat split.
Qed.
Lemma clock_levels e l l' : l_half l' = l_half l -> l_rising l' = l_rising l -> l_falling l' = l_falling l -> (e_clocks e <> None \/ l_low_snr l' = l_low_snr l) ->
  forall w, clock_of new_cdr (e_clocks e) (e_config e) l' w = clock_of new_cdr (e_clocks e) (e_config e) l w.
Proof.
  intros H1 H2 H3 H w. assert (S : forall p, selected_edges l' p w = selected_edges l p w) by (intros p; unfold selected_edges; rewrite H1, H2, H3; reflexivity).
  unfold clock_of, runner_cdr. rewrite !S. destruct (e_clocks e); [reflexivity|]. destruct H as [H| -> ]; [congruence|reflexivity].
Qed.
(** Unless the levels are configured, the clock is recovered and the waveforms
    are noisy: what is calculated with debug plots is calculated without. *)
Theorem C78_debug e m e1 : calculate true e = (Ok m, e1) ->
  ~ levels_given (e_config e) \/ quiet round6 fit aic (e_config e) (all_samples (e_waveforms e)) \/ e_clocks e <> None \/ e_clock_edges e <> None ->
  exists e2, calculate false e = (Ok m, e2) /\ get_measures e2 = get_measures e1 /\ get_raw_heatmap e2 = get_raw_heatmap e1 /\ get_images e2 = get_images e1
    /\ get_clock_edges e2 = get_clock_edges e1 /\ forall nrzm, bit_stream e2 nrzm = bit_stream e1 nrzm.
Proof.
  intros C H. destruct (calculate_inv _ _ _ _ _ _ _ _ true e m e1 C) as (l & edges & t & h & dirs & im & FL & CK & SP & PL & RS & M & HM & IM & D & CE & _ & CA & _).
  destruct (levels_quiet _ _ _ FL) as (l' & FL' & Z & U & HF & RI & FA & SN). 
  assert (CK' : clock new_cdr e l' = Ok edges).
  { unfold clock in *  . destruct (e_clock_edges e) as [ce|]; [exact CK|]. assert (H' : e_clocks e <> None \/ l_low_snr l' = l_low_snr l) by (destruct H as [H|[H|[H|H]]]; [right; apply SN; left; exact H|right; apply SN; right; exact H|left; exact H|congruence]).
    rewrite <- CK. clear -H' HF RI FA. induction (clock_source (e_waveforms e) (e_clocks e)) as [|w ws IH]; [reflexivity|]. cbn [mapM]. rewrite IH, (clock_levels e l l' HF RI FA H' w). reflexivity. }
  rewrite <- (results_levels percentile cast fuel draw (e_waveforms e) (e_mask e) (e_resolution e) (e_t_delta e) (e_config e) l l' edges t (e_masked e) Z U HF) in RS.
  destruct (calculate_eq round6 fit aic new_cdr percentile cast fuel draw false e l' edges t m h dirs im (e_masked e1) FL' CK' SP ltac:(intros X; discriminate X) RS) as (e2 & E2 & M2 & H2 & I2 & D2 & C2 & A2).
  exists e2. split; [exact E2|]. unfold get_measures, get_raw_heatmap, get_images, get_clock_edges, bit_stream. rewrite A2, CA, M2, M, H2, HM, I2, IM, C2, CE, D2, D. repeat split.
Qed.

(** Otherwise debug plots replace the recovered clock by one of a fixed rate. *)
Theorem C78_fixed_rate e m e1 v0 v1 : calculate true e = (Ok m, e1) -> c_y_0 (e_config e) = Some v0 -> c_y_1 (e_config e) = Some v1 ->
  ~ quiet round6 fit aic (e_config e) (all_samples (e_waveforms e)) -> e_clocks e = None -> e_clock_edges e = None ->
  exists edges, get_clock_edges e1 = Ok (Some edges) /\ mapM (fallback_clock (c_fallback_period (e_config e))) (waves (e_waveforms e)) = Ok edges.
Proof.
  intros C Y0 Y1 NQ NC NE. destruct (calculate_inv _ _ _ _ _ _ _ _ true e m e1 C) as (l & edges & t & h & dirs & im & FL & CK & SP & PL & RS & M & HM & IM & D & CE & _ & CA & _).
  exists edges. split; [unfold get_clock_edges; rewrite CA, CE; reflexivity|]. unfold clock in CK. rewrite NE, NC in CK. cbn [clock_source] in CK. rewrite <- CK.
  assert (LS : l_low_snr l = true).
  { unfold EyeRunModel.find_levels in FL. rewrite Y0, Y1 in FL. destruct (runner_levels _ _ _ _ _) as [[u0 u1]|] eqn:RL; [|discriminate]. cbn [bind] in FL. injection FL as <-. cbn [l_low_snr StatsModel.stddev].
    destruct (Reqb (StatsModel.stddev u1 + StatsModel.stddev u0) 0) eqn:Z.
    - exfalso. apply NQ. intros a b c d _ _ Q. rewrite RL in Q. injection Q as <- <-. left. apply Reqb_true. exact Z.
    - change (Rltb ((v1 - v0) / (StatsModel.stddev u1 + StatsModel.stddev u0)) 2 = true). destruct (Rltb ((v1 - v0) / (StatsModel.stddev u1 + StatsModel.stddev u0)) 2) eqn:Q; [reflexivity|]. exfalso. apply NQ. apply Rltb_false in Q. intros a b c d A B Q'. rewrite RL in Q'. injection Q' as <- <-. rewrite Y0 in A. rewrite Y1 in B. injection A as <-. injection B as <-. right. exact Q. }
  clear -LS. induction (waves (e_waveforms e)) as [|w ws IH]; [reflexivity|]. cbn [mapM]. rewrite IH. unfold clock_of. rewrite LS. reflexivity.
Qed.
Lemma skip_completes d e l edges t : find_levels (e_config e) (all_samples (e_waveforms e)) d = Ok l -> clock new_cdr e l = Ok edges -> symbol_period edges = Ok (Some t) -> 0 < t -> 0 < e_t_delta e -> plottable d e ->
  (length (waves (e_waveforms e)) <= length edges)%nat -> (forall w, In w (waves (e_waveforms e)) -> fst w <> []) -> e_converted e = None ->
  c_skip_measures (e_config e) = true -> c_point_cloud (e_config e) = true -> (1 <= e_resolution e)%Z ->
  - (1 / 2) <= c_edge_lower (e_config e) < 3 / 2 -> - (1 / 2) <= c_edge_upper (e_config e) < 3 / 2 ->
  exists m e1, calculate d e = (Ok m, e1) /\ get_clock_edges e1 = Ok (Some edges).
Proof.
  intros FL CK SP TP TD PL LE NE NC SK PC RP EL EU.
  assert (RS : exists r, results percentile cast fuel draw (e_waveforms e) (e_mask e) (e_resolution e) (e_t_delta e) (e_config e) l edges t (e_masked e) = Ok r).
  { unfold EyeRunProofs.results. destruct (Reqb (e_t_delta e) 0) eqn:TZ; [apply Reqb_true in TZ; lra|]. destruct (sample_all_total t (e_t_delta e) edges (waves (e_waveforms e)) TP TD LE NE) as (ct & ->).
    cbn [bind]. unfold measured. rewrite SK. cbn [bind]. rewrite PC. match goal with |- context [step5_heatmap _ _ _ _ _ ?a ?b ?c ?r true ?n] => destruct (cloud_total cast fuel t (e_t_delta e) a b c r n TP TD) as (h & ->) end. cbn [bind].
    rewrite (mask_found_skip _ _ _ _ _ _ _ _ _ SK). cbn [bind]. unfold e_masked. rewrite NC. unfold pictures.
    match goal with |- context [draw_images ?d ?ca ?r ?h ?a ?b None ?mg ?hs ?os ?td ?tt ?yz ?ua ?ws] => destruct (images_ok ca d r h a b mg hs os td tt yz ua ws RP EL EU) as (u & ->) end. cbn [bind]. eexists. reflexivity. }
  destruct RS as ([[[[m h] dirs] im] pr] & RS). destruct (calculate_eq round6 fit aic new_cdr percentile cast fuel draw d e l edges t m h dirs im pr FL CK SP PL RS) as (e1 & E & _ & _ & _ & _ & C1 & A1).
  exists m, e1. split; [exact E|]. unfold get_clock_edges. rewrite A1, C1. reflexivity.
Qed.
End Debug.
Print Assumptions C78_debug.
Print Assumptions C78_fixed_rate.

(** ** Concrete cases *)
(** A record whose lower samples are 0 and 2 and upper samples 8 and 10, with
    configured levels of 4 and 6; a clock recovery that finds a clock of period
    2; a fall back period of 1. *)
Definition noisy_wave : ndarray :=
  NdArray [2; 8]%nat (fun i => match i with
    | [0%nat; j] => INR j
    | [1%nat; j] => match (j mod 4)%nat with 0%nat => 0 | 1%nat => 8 | 2%nat => 2 | _ => 10 end
    | _ => 0 end).
Definition noisy_config (y0 y1 : option R) : config :=
  Config None (1 / 10) (Some 10000) RISING (Some (fun _ => Ok ([2; 4; 6], [0; 0; 0]))) 1 true (2 / 10) (1 / 10) (5 / 100) (2 / 10) (8 / 10) 0 true y0 y1 None.

Definition noisy_y : list R := [0; 8; 2; 10; 0; 8; 2; 10].
Definition noisy_t : list R := map INR (seq 0 8).
Definition noisy_eye (v0 v1 : R) : result eye := construct noisy_wave None None None 10 (Some (Some (noisy_config (Some v0) (Some v1)))).
Definition fits (fit : nat -> list R -> result (list (R * R * R))) : Prop := averages fit /\ forall k l, (1 <= k <= 2)%nat -> l <> [] -> exists m, fit k l = Ok m.
Lemma noisy_runner round6 fit aic : fits fit -> exists u0 u1, runner_levels round6 fit aic noisy_y (Some 10000) = Ok (u0, u1) /\ StatsModel.stddev u0 = 1 /\ StatsModel.stddev u1 = 1.
Proof.
  intros (AV & T). rewrite runner_eq. change (Some 10000) with (c_levels_n_max (noisy_config None None)). rewrite thinned_short; [|intros n E; injection E as <-; cbn; lra|discriminate]. cbn [bind]. unfold split_levels.
  assert (RG : ranges 0 10 noisy_y) by (split; [left; reflexivity|]; split; [do 3 right; left; reflexivity|]; intros v V; cbn in V; repeat (destruct V as [<-|V]; [lra|]); destruct V).
  destruct (ranges_py _ _ _ RG) as (-> & -> & _). cbn [bind].
  assert (F0 : filter (fun v => Rltb v ((0 + 10) / 2)) noisy_y = [0; 2; 0; 2]).
  { unfold noisy_y. cbn [filter]. rewrite !(proj2 (Rltb_true 0 _)), !(proj2 (Rltb_true 2 _)), !(proj2 (Rltb_false 8 _)), !(proj2 (Rltb_false 10 _)) by lra. reflexivity. }
  assert (F1 : filter (fun v => Rltb ((0 + 10) / 2) v) noisy_y = [8; 10; 8; 10]).
  { unfold noisy_y. cbn [filter]. rewrite !(proj2 (Rltb_false _ 0)), !(proj2 (Rltb_false _ 2)), !(proj2 (Rltb_true _ 8)), !(proj2 (Rltb_true _ 10)) by lra. reflexivity. }
  rewrite F0, F1. destruct (fit_found round6 fit aic [0; 2; 0; 2] T ltac:(discriminate)) as (g0 & G0). destruct (fit_found round6 fit aic [8; 10; 8; 10] T ltac:(discriminate)) as (g1 & G1). rewrite G0, G1. cbn [bind].
  destruct (fit_between round6 fit aic AV [0; 2; 0; 2] g0 0 10) as (N0 & M0); [intros v V; cbn in V; repeat (destruct V as [<-|V]; [lra|]); destruct V|exact G0|].
  destruct (fit_between round6 fit aic AV [8; 10; 8; 10] g1 0 10) as (N1 & M1); [intros v V; cbn in V; repeat (destruct V as [<-|V]; [lra|]); destruct V|exact G1|].
  destruct (center_between g0 0 10 N0 M0) as (c0 & -> & _). destruct (center_between g1 0 10 N1 M1) as (c1 & -> & _). cbn [bind]. do 2 eexists. split; [reflexivity|]. cbn [StatsModel.stddev].
  assert (I4 : INR 4 = 4) by (cbn; lra). split; unfold usamples, StatsModel.rsum; cbn [length map fold_right StatsModel.stddev]; rewrite I4; rewrite <- sqrt_1; f_equal; field.
Qed.
Lemma noisy_waves v0 v1 e : noisy_eye v0 v1 = Ok e -> waves (e_waveforms e) = [(noisy_t, noisy_y)] /\ e_config e = noisy_config (Some v0) (Some v1) /\ e_clocks e = None /\ e_clock_edges e = None /\ e_converted e = None /\ e_resolution e = 10%Z /\ 0 < e_t_delta e.
Proof. intros C. injection C as <-. split; [reflexivity|]. repeat (split; [reflexivity|]). cbn. lra. Qed.
Lemma noisy_sorted : StronglySorted Rlt noisy_t.
Proof. unfold noisy_t. cbn [seq map]. repeat constructor; apply lt_INR; lia. Qed.
Lemma noisy_period a b c : 0 < b - a -> 0 < c - b -> exists t, symbol_period [[a; b; c]] = Ok (Some t) /\ 0 < t.
Proof.
  intros A B. destruct (symbol_period_spec [[a; b; c]]) as (_ & E & P); [discriminate|discriminate| |eexists; split; [exact E|exact P]].
  intros p I. cbn in I. destruct I as [<-|[<-|[]]]; assumption.
Qed.
Lemma noisy_completes round6 fit aic new_cdr percentile cast fuel draw d v0 v1 e l edges t : noisy_eye v0 v1 = Ok e -> find_levels round6 fit aic (noisy_config (Some v0) (Some v1)) noisy_y d = Ok l ->
  clock_of new_cdr None (noisy_config (Some v0) (Some v1)) l (noisy_t, noisy_y) = Ok edges -> symbol_period [edges] = Ok (Some t) -> 0 < t ->
  exists m e1, calculate round6 fit aic new_cdr percentile cast fuel draw d e = (Ok m, e1) /\ get_clock_edges e1 = Ok (Some [edges]).
Proof.
  intros C FL CK SP T. destruct (noisy_waves v0 v1 e C) as (W & CF & NC & NE & NV & RE & TD). apply (skip_completes round6 fit aic new_cdr percentile cast fuel draw d e l [edges] t).
  - rewrite CF. unfold all_samples. rewrite W. exact FL.
  - unfold clock. rewrite NE, NC, CF. cbn [clock_source]. rewrite W. cbn [mapM]. rewrite CK. reflexivity.
  - exact SP.
  - exact T.
  - exact TD.
  - intros _. left. exact NE.
  - rewrite W. cbn. lia.
  - rewrite W. intros w [<-|[]]. discriminate.
  - exact NV.
  - rewrite CF. reflexivity.
  - rewrite CF. reflexivity.
  - rewrite RE. lia.
  - rewrite CF. cbn. lra.
  - rewrite CF. cbn. lra.
Qed.

Lemma noisy_clock l : l_falling l = l_half l - (l_rising l - l_half l) -> 0 < l_falling l -> l_half l <= l_rising l -> l_low_snr l = false ->
  forall new_cdr v0 v1, clock_of new_cdr None (noisy_config v0 v1) l (noisy_t, noisy_y) = Ok [2; 4; 6].
Proof.
  intros A B C D new_cdr v0 v1. unfold clock_of. rewrite D. unfold runner_cdr. destruct (C57_clock_found l noisy_t noisy_y 0 RISING eq_refl eq_refl B noisy_sorted ltac:(split; lra)) as (e & E). cbn [c_polarity noisy_config c_cdr]. rewrite E. reflexivity.
Qed.
(** C78 finding: debug plots change the results. *)
Theorem C78_debug_refuted : forall round6 fit aic new_cdr percentile cast fuel draw, fits fit -> exists e m1 e1 m2 e2 c1 c2,
  noisy_eye 4 6 = Ok e
  /\ calculate round6 fit aic new_cdr percentile cast fuel draw true e = (Ok m1, e1) /\ get_clock_edges e1 = Ok (Some c1)
  /\ calculate round6 fit aic new_cdr percentile cast fuel draw false e = (Ok m2, e2) /\ get_clock_edges e2 = Ok (Some c2)
  /\ (forall p, is_period c1 p -> p = 1) /\ c2 = [[2; 4; 6]].
Proof.
  intros round6 fit aic new_cdr percentile cast fuel draw FI. destruct (noisy_runner round6 fit aic FI) as (u0 & u1 & RU & S0 & S1).
  set (c := noisy_config (Some 4) (Some 6)). assert (HE : exists e, noisy_eye 4 6 = Ok e) by (eexists; reflexivity). destruct HE as (e & HE).
  assert (L1 : exists l, find_levels round6 fit aic c noisy_y true = Ok l /\ l_low_snr l = true).
  { unfold find_levels. cbn [c c_y_0 c_y_1 noisy_config c_levels_n_max]. rewrite RU. cbn [bind]. eexists. split; [reflexivity|]. cbn [l_low_snr StatsModel.stddev]. rewrite S0, S1. rewrite (proj2 (Reqb_false (1 + 1) 0)) by lra.
    change (Rltb ((6 - 4) / (1 + 1)) 2 = true). apply Rltb_true. lra. }
  assert (L2 : exists l, find_levels round6 fit aic c noisy_y false = Ok l /\ l_falling l = l_half l - (l_rising l - l_half l) /\ 0 < l_falling l /\ l_half l <= l_rising l /\ l_low_snr l = false).
  { unfold find_levels. cbn [c c_y_0 c_y_1 noisy_config bind]. eexists. split; [reflexivity|]. cbn. rewrite (proj2 (Reqb_true (0 + 0) 0)) by lra. repeat split; lra. }
  destruct L1 as (l1 & F1 & LS). destruct L2 as (l2 & F2 & A & B & C & D).
  destruct (C57_fixed_rate 1 0 (INR 7) noisy_t noisy_y ltac:(lra) eq_refl eq_refl) as (e1 & FC & SS & IX & AD).
  assert (P1 : forall p, is_period [e1] p -> p = 1) by (intros p (x & [<-|[]] & Q); exact (AD p Q)).
  assert (T1 : exists t, symbol_period [e1] = Ok (Some t) /\ 0 < t).
  { assert (NP : exists p, is_period [e1] p).
    { assert (I1 : In 1 e1) by (apply IX; exists 1%nat; split; [lia|]; split; [cbn; lra|cbn; lra]). assert (I2 : In 2 e1) by (apply IX; exists 2%nat; split; [lia|]; split; [cbn; lra|cbn; lra]).
      destruct e1 as [|x [|y r]]; [destruct I1|destruct I1 as [I1|[]]; destruct I2 as [I2|[]]; lra|]. exists (y - x). exists (x :: y :: r). split; [left; reflexivity|]. exists 0%nat, x, y. repeat split. }
    destruct NP as (p & NP). destruct (symbol_period_spec [e1]) as (_ & E & P); [discriminate|intros Q; apply periods_In in NP; rewrite Q in NP; destruct NP|intros q Q; apply periods_In in Q; rewrite (P1 q Q); lra|]. eexists. split; [exact E|exact P]. }
  destruct T1 as (t1 & SP1 & TP1). destruct (noisy_period 2 4 6 ltac:(lra) ltac:(lra)) as (t2 & SP2 & TP2).
  destruct (noisy_completes round6 fit aic new_cdr percentile cast fuel draw true 4 6 e l1 e1 t1 HE F1) as (m1 & x1 & CA1 & CE1); [unfold clock_of; rewrite LS; exact FC|exact SP1|exact TP1|].
  destruct (noisy_completes round6 fit aic new_cdr percentile cast fuel draw false 4 6 e l2 [2; 4; 6] t2 HE F2) as (m2 & x2 & CA2 & CE2); [apply noisy_clock; assumption|exact SP2|exact TP2|].
  exists e, m1, x1, m2, x2, [e1], [[2; 4; 6]]. repeat (split; [assumption|]). reflexivity.
Qed.
Print Assumptions C78_debug_refuted.
(** With configured levels of 0 and 10 the same record is quiet. *)
Example C78_met round6 fit aic new_cdr percentile cast fuel draw : fits fit -> exists e m e1,
  noisy_eye 0 10 = Ok e /\ calculate round6 fit aic new_cdr percentile cast fuel draw true e = (Ok m, e1)
  /\ quiet round6 fit aic (e_config e) (all_samples (e_waveforms e)).
Proof.
  intros FI. destruct (noisy_runner round6 fit aic FI) as (u0 & u1 & RU & S0 & S1). assert (HE : exists e, noisy_eye 0 10 = Ok e) by (eexists; reflexivity). destruct HE as (e & HE). destruct (noisy_waves 0 10 e HE) as (W & CF & _).
  assert (L1 : exists l, find_levels round6 fit aic (noisy_config (Some 0) (Some 10)) noisy_y true = Ok l /\ l_falling l = l_half l - (l_rising l - l_half l) /\ 0 < l_falling l /\ l_half l <= l_rising l /\ l_low_snr l = false).
  { unfold find_levels. cbn [c_y_0 c_y_1 noisy_config c_levels_n_max]. rewrite RU. cbn [bind]. eexists. split; [reflexivity|]. cbn. rewrite S0, S1. rewrite (proj2 (Reqb_false (1 + 1) 0)) by lra.
    split; [lra|]. split; [lra|]. split; [lra|]. apply Rltb_false. cbn. lra. }
  destruct L1 as (l & FL & A & B & C & D). destruct (noisy_period 2 4 6 ltac:(lra) ltac:(lra)) as (t2 & SP2 & TP2).
  destruct (noisy_completes round6 fit aic new_cdr percentile cast fuel draw true 0 10 e l [2; 4; 6] t2 HE FL) as (m & e1 & CA & _); [apply noisy_clock; assumption|exact SP2|exact TP2|].
  exists e, m, e1. split; [exact HE|]. split; [exact CA|]. rewrite CF. unfold all_samples. rewrite W. intros v0 v1 w0 w1 V0 V1 E. injection V0 as <-. injection V1 as <-. change (runner_levels round6 fit aic noisy_y (Some 10000) = Ok (w0, w1)) in E. rewrite RU in E. injection E as <- <-. right. rewrite S0, S1. lra.
Qed.
(** There are such fits. *)
From Verif Require Import EyeOpenProps.
Example C78_fits : fits average_fit.
Proof. split; [exact average_fit_averages|]. intros k l _ N. destruct l as [|v l]; [congruence|]. eexists. reflexivity. Qed.
