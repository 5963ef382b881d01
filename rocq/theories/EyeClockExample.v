(** C67: a concrete signal whose clock is recovered. *)
From Coq Require Import ZArith Reals Bool List Lia Lra Sorted Permutation.
Import ListNotations.
From Verif Require Import Base Num RBool DrawSpec LinesModel LinesSpec LinesProps StatsModel MaskModel EyeModel EyeSpec UncertainProofs Pam2Model Pam2Spec Pam2Proofs MathModel EyeImageModel EyeRunModel EyeRunSpec EyeRunProofs EyeRunPeriod EyeLevelsProofs EyeLevelsProps EyeReportSpec EyeReportProps EyeDataSpec EyeDataProps EyeClockProps.
From Verif Require CdrModel CdrSpec CdrProps.
Local Open Scope R_scope.

(** Bits of eight samples each: 0 0 1 0 1 0 1. *)
Definition line_bit (n : Z) : bool := (1 <? n)%Z && Z.even n.
Definition line_value (j : nat) : R := if line_bit (Z.of_nat j / 8) then 1 else 0.
Definition line_wave : ndarray := NdArray [2; 56]%nat (fun i => match i with [0%nat; j] => INR j | [1%nat; j] => line_value j | _ => 0 end).
Definition line_t : list R := map INR (seq 0 56).
Definition line_y : list R := map line_value (seq 0 56).
Definition line_signal : signal := (7 / 2, line_bit).
Definition line_cdr : cdr := fun es => CdrModel.run Int_part CdrProps.insertion_sort 200000 true true (Some 8) es true.
Definition line_config : config :=
  Config None (1 / 10) (Some 10000) RISING (Some line_cdr) 1 false (3 / 10) (3 / 10) (5 / 100) (2 / 10) (8 / 10) 0 true (Some 0) (Some 1) None.
Definition line_clock : list R := map (fun i => 15 + 1 / 2 + 4 + INR i * 8) (seq 0 4).
Definition line_levels : levels := Levels 0 1 (1 / 2) (11 / 20) (9 / 20) false.

Lemma line_nth j : (j < 56)%nat -> nth_error line_y j = Some (line_value j) /\ nth_error line_t j = Some (INR j).
Proof. intros J. unfold line_y, line_t. rewrite !nth_error_map, (nth_error_nth' _ 0%nat), seq_nth by (rewrite ?seq_length; exact J). split; reflexivity. Qed.

Section Line.
Let step := edges_step line_t line_y (l_rising line_levels) (l_half line_levels) (l_falling line_levels) 0.
Lemma line_get j : (j < 56)%nat -> get line_y j = Ok (line_value j).
Proof. intros J. unfold get. rewrite (proj1 (line_nth j J)). reflexivity. Qed.
Lemma line_stay (low : bool) r f : forall n a, (a + n <= 56)%nat -> (forall j, (a <= j < a + n)%nat -> line_bit (Z.of_nat j / 8) = negb low) ->
  foldM step (low, r, f) (seq a n) = Ok (low, r, f).
Proof.
  induction n as [|n IH]; intros a L H; [reflexivity|]. cbn [seq foldM]. unfold step at 1, edges_step. rewrite line_get by lia. cbn [bind]. unfold line_value. rewrite H by lia. destruct low; cbn [negb].
  - assert (Rltb (l_rising line_levels) 0 = false) as E by (apply Rltb_false; cbn; lra). cbn [nlt NumR]. rewrite E. cbn [bind]. apply IH; [lia|]. intros j J. apply H. lia.
  - assert (Rltb 1 (l_falling line_levels) = false) as E by (apply Rltb_false; cbn; lra). cbn [nlt NumR]. rewrite E. cbn [bind]. apply IH; [lia|]. intros j J. apply H. lia.
Qed.
Lemma line_go (low : bool) r f a : (1 <= a < 56)%nat -> line_bit (Z.of_nat a / 8) = low -> line_bit (Z.of_nat (a - 1) / 8) = negb low ->
  step (low, r, f) a = Ok (negb low, if low then r ++ [Some (INR a - 1 / 2)] else r, if low then f else f ++ [Some (INR a - 1 / 2)]).
Proof.
  intros A B1 B0. assert (CR : exists j, crossing line_t line_y (Z.of_nat a) (l_half line_levels) false 0 = Ok (Some (INR a - 1 / 2), j)).
  { assert (SA : straddles line_y (l_half line_levels) a).
    { split; [lia|]. exists (line_value (a - 1)), (line_value a). split; [apply line_nth; lia|]. split; [apply line_nth; lia|]. unfold line_value. rewrite B1, B0. cbn [line_levels l_half]. destruct low; cbn [negb]; lra. }
    destruct (C03_crossing_backward line_t line_y a (l_half line_levels) eq_refl A) as [(j & x & E & J & _ & NS & x1 & x2 & y1 & y2 & X1 & X2 & Y1 & Y2 & _ & EQ & _)|(N & _)].
    2: destruct (N a ltac:(lia) SA).
    assert (j = a) as -> by (destruct (Nat.eq_dec j a) as [|D]; [assumption|]; destruct (NS a ltac:(lia) SA)).
    exists (Z.of_nat a). rewrite E. do 3 f_equal. unfold sample in *  . rewrite (proj2 (line_nth (a - 1) ltac:(lia))) in X1. rewrite (proj2 (line_nth a ltac:(lia))) in X2. rewrite (proj1 (line_nth (a - 1) ltac:(lia))) in Y1. rewrite (proj1 (line_nth a ltac:(lia))) in Y2.
    assert (INR (a - 1) = INR a - 1) as E1 by (rewrite minus_INR by lia; reflexivity). rewrite E1 in X1. assert (x1 = INR a - 1) as -> by congruence. assert (x2 = INR a) as -> by congruence.
    unfold line_value in Y1, Y2. rewrite B0 in Y1. rewrite B1 in Y2. destruct low; cbn [negb] in Y1; assert (y1 = 0 \/ y1 = 1) by (first [left; congruence|right; congruence]); injection Y1 as <-; injection Y2 as <-; cbn [line_levels l_half] in EQ; lra. }
  destruct CR as (j & CR). unfold step, edges_step. rewrite line_get by lia. cbn [bind]. unfold line_value. rewrite B1. destruct low; cbn [negb].
  - assert (Rltb (l_rising line_levels) 1 = true) as E by (apply Rltb_true; cbn; lra). cbn [nlt NumR]. rewrite E, CR. reflexivity.
  - assert (Rltb 0 (l_falling line_levels) = true) as E by (apply Rltb_true; cbn; lra). cbn [nlt NumR]. rewrite E, CR. reflexivity.
Qed.
Lemma line_fold : foldM step (true, [], []) (seq 1 55) = Ok (false, [Some (INR 16 - 1 / 2); Some (INR 32 - 1 / 2); Some (INR 48 - 1 / 2)], [Some (INR 24 - 1 / 2); Some (INR 40 - 1 / 2)]).
Proof.
  assert (SQ : seq 1 55 = seq 1 15 ++ 16%nat :: seq 17 7 ++ 24%nat :: seq 25 7 ++ 32%nat :: seq 33 7 ++ 40%nat :: seq 41 7 ++ 48%nat :: seq 49 7) by reflexivity.
  rewrite SQ. clear SQ.
  assert (BLOCK : forall n j, (8 * n <= Z.of_nat j < 8 * n + 8)%Z -> (Z.of_nat j / 8 = n)%Z) by (intros n j J; symmetry; apply (Z.div_unique_pos _ 8 n (Z.of_nat j - 8 * n)); lia).
  rewrite LinesProofs.foldM_app, line_stay; [|lia|]. 2: { intros j J. assert (Z.of_nat j / 8 = 0 \/ Z.of_nat j / 8 = 1)%Z as [-> | ->]; [|reflexivity|reflexivity]. destruct (Nat.lt_ge_cases j 8); [left|right]; apply BLOCK; lia. }
  cbn [bind foldM]. rewrite line_go; [|lia|reflexivity|reflexivity]. cbn [negb app].
  rewrite LinesProofs.foldM_app, line_stay; [|lia|intros j J; rewrite (BLOCK 2%Z) by lia; reflexivity].
  cbn [bind foldM]. rewrite line_go; [|lia|reflexivity|reflexivity]. cbn [negb app].
  rewrite LinesProofs.foldM_app, line_stay; [|lia|intros j J; rewrite (BLOCK 3%Z) by lia; reflexivity].
  cbn [bind foldM]. rewrite line_go; [|lia|reflexivity|reflexivity]. cbn [negb app].
  rewrite LinesProofs.foldM_app, line_stay; [|lia|intros j J; rewrite (BLOCK 4%Z) by lia; reflexivity].
  cbn [bind foldM]. rewrite line_go; [|lia|reflexivity|reflexivity]. cbn [negb app].
  rewrite LinesProofs.foldM_app, line_stay; [|lia|intros j J; rewrite (BLOCK 5%Z) by lia; reflexivity].
  cbn [bind foldM]. rewrite line_go; [|lia|reflexivity|reflexivity]. cbn [negb app].
  apply line_stay; [lia|]. intros j J. rewrite (BLOCK 6%Z) by lia. reflexivity.
Qed.
End Line.
Lemma line_edges : selected_edges line_levels RISING (line_t, line_y) = Ok (CdrSpec.ideal (15 + 1 / 2) 8 [0; 2; 4]%Z).
Proof.
  unfold selected_edges. cbn [fst snd]. rewrite C09_edges_np_same by reflexivity. unfold LinesModel.edges. rewrite line_get by lia. cbn [bind].
  assert (Y0 : Rltb (line_value 0) (l_falling line_levels) = true) by (apply Rltb_true; cbn; lra). cbn [nlt NumR]. rewrite Y0. change (range 1 (length line_y)) with (seq 1 55). rewrite line_fold. cbn [bind fst snd].
  apply finite_some. unfold CdrSpec.ideal. cbn [map]. rewrite !INR_IZR_INZ. cbn [Z.of_nat Pos.of_succ_nat Pos.succ]. repeat (f_equal; try lra).
Qed.
Lemma line_run : exists ties, line_cdr (CdrSpec.ideal (15 + 1 / 2) 8 [0; 2; 4]%Z) = Ok (line_clock, ties).
Proof.
  destruct (CdrProps.C44_fixed_exact CdrProps.insertion_sort 200000 true (15 + 1 / 2) 8 [0; 2; 4]%Z true) as (ties & E & _); [lra|cbn; lia|cbn; lia|cbn; lia|cbn; lra|].
  exists ties. unfold line_cdr. rewrite E. do 2 f_equal. unfold line_clock. apply map_ext. intros i. cbn [hd]. lra.
Qed.

(** Recovering a clock and giving the recovered clock edges is the same. *)
Lemma given_back round6 fit aic new_cdr percentile cast fuel draw e l edges ties t m e1 :
  e_clock_edges e = None -> find_levels round6 fit aic (e_config e) (all_samples (e_waveforms e)) false = Ok l -> clock new_cdr e l = Ok edges ->
  completed round6 fit aic new_cdr percentile cast fuel draw false (set_clock edges ties e) m e1 edges t ->
  exists e2, completed round6 fit aic new_cdr percentile cast fuel draw false e m e2 edges t.
Proof.
  intros CE FL CK (CA & GC & PP & SP & TD).
  destruct (calculate_inv round6 fit aic new_cdr percentile cast fuel draw false _ m e1 CA) as (l' & edges' & t' & h & dirs & im & FL' & CK' & SP' & _ & RS & _ & _ & _ & _ & _ & _).
  unfold clock in CK'. cbn [set_clock e_clock_edges] in CK'. assert (edges' = edges) as -> by congruence. cbn [set_clock e_config e_waveforms e_mask e_resolution e_t_delta e_masked] in FL', RS. assert (l' = l) as -> by congruence. assert (t' = t) as -> by congruence.
  destruct (calculate_eq round6 fit aic new_cdr percentile cast fuel draw false e l edges t m h dirs im (e_masked e1) FL CK SP) as (e2 & C2 & _ & _ & _ & _ & EC & CALC); [intros Q; discriminate|exact RS|].
  exists e2. split; [exact C2|]. split; [unfold get_clock_edges; rewrite CALC, EC; reflexivity|]. split; [exact PP|]. split; [exact SP|exact TD].
Qed.

Lemma line_sampled : sampled (Bands 0 0 1 1) 8 (7 / 2) 1 (line_t, line_y) line_signal.
Proof.
  exists 0. cbn [fst snd]. split; [unfold line_t, line_y; rewrite map_length, seq_length; apply map_ext; intros j; lra|]. intros j n J N. change (length line_y) with 56%nat in J.
  rewrite (nth_error_nth _ _ 0 (proj1 (line_nth j J))). unfold middle, line_signal in N. cbn [fst] in N. apply Rabs_le_between in N. rewrite INR_IZR_INZ in N.
  assert (B : (8 * n - 1 < Z.of_nat j < 8 * n + 8)%Z) by (split; apply lt_IZR; rewrite ?minus_IZR, ?plus_IZR, ?mult_IZR; lra).
  assert (Z.of_nat j / 8 = n)%Z as E by (symmetry; apply (Z.div_unique_pos _ 8 n (Z.of_nat j - 8 * n)); lia). unfold line_value, line_signal, shows. cbn [snd low_from low_to high_from high_to]. rewrite E. destruct (line_bit n); lra.
Qed.
Lemma line_clock_nth i : (i < 4)%nat -> nth_error line_clock i = Some (15 + 1 / 2 + 4 + INR i * 8).
Proof. intros IL. unfold line_clock. rewrite nth_error_map, (nth_error_nth' _ 0%nat), seq_nth by (rewrite ?seq_length; exact IL). reflexivity. Qed.
Lemma line_spacing p : is_period [line_clock] p -> p = 8.
Proof.
  intros (c & [<-|[]] & i & a & b & A & B & ->). assert (IL : (S i < 4)%nat) by (apply (nth_error_Some line_clock); congruence).
  rewrite line_clock_nth in A by lia. rewrite line_clock_nth in B by lia. assert (EA : a = 15 + 1 / 2 + 4 + INR i * 8) by congruence. assert (EB : b = 15 + 1 / 2 + 4 + INR (S i) * 8) by congruence. rewrite S_INR in EB. lra.
Qed.
Lemma line_period : symbol_period [line_clock] = Ok (Some 8).
Proof.
  destruct (C57_period [line_clock]) as (T & E & _ & U & _); [|intros p I; rewrite (line_spacing p I); lra|].
  - eexists. exists line_clock. split; [left; reflexivity|]. exists 0%nat, (15 + 1 / 2 + 4 + INR 0 * 8), (15 + 1 / 2 + 4 + INR 1 * 8). repeat split.
  - rewrite E. do 2 f_equal. apply U. exact line_spacing.
Qed.

Example C67_recovered_met round6 fit aic new_cdr percentile cast fuel draw : exists e0 m e1 edges,
  construct line_wave None None None 10 (Some (Some line_config)) = Ok e0
  /\ Forall2 (sampled (Bands 0 0 1 1) 8 (7 / 2) (e_t_delta e0)) (waves (e_waveforms e0)) [line_signal]
  /\ completed round6 fit aic new_cdr percentile cast fuel draw false e0 m e1 edges 8 /\ bit_stream e1 false = Ok [[1; 0; 1; 0]%Z].
Proof.
  destruct (construct line_wave None None None 10 (Some (Some line_config))) as [e0|] eqn:C; [|discriminate].
  assert (TD : e_t_delta e0 = 1). { injection C as <-. change ((INR 55 - INR 0) / INR 55 = 1). rewrite (INR_IZR_INZ 55), (INR_IZR_INZ 0). cbn [Z.of_nat Pos.of_succ_nat Pos.succ]. lra. }
  assert (WV : waves (e_waveforms e0) = [(line_t, line_y)]) by (injection C as <-; reflexivity).
  assert (CF : e_config e0 = line_config) by (injection C as <-; reflexivity). assert (CE : e_clock_edges e0 = None) by (injection C as <-; reflexivity). assert (CC : e_clocks e0 = None) by (injection C as <-; reflexivity).
  assert (MK : e_mask e0 = None) by (injection C as <-; reflexivity). assert (MC : e_converted e0 = None) by (injection C as <-; reflexivity). assert (RS : e_resolution e0 = 10%Z) by (injection C as <-; reflexivity). clear C.
  assert (FL : find_levels round6 fit aic (e_config e0) (all_samples (e_waveforms e0)) false = Ok line_levels).
  { rewrite CF. destruct (C57_manual line_config 0 1 (conj eq_refl eq_refl) round6 fit aic (all_samples (e_waveforms e0))) as (l & FL & Z0 & UA & SN & _).
    destruct (C57_thresholds _ _ _ _ _ _ _ FL) as (_ & _ & _ & TH & MID & _ & HY). specialize (TH eq_refl). specialize (HY eq_refl). cbn [line_config c_hysteresis_ua] in HY. rewrite FL. destruct l as [z u h r f s]. cbn [l_zero l_ua l_half l_rising l_falling l_low_snr] in *  . subst z u s. unfold line_levels. f_equal. f_equal; lra. }
  destruct line_run as (ties & RU).
  assert (CK : clock new_cdr e0 line_levels = Ok [line_clock]).
  { unfold clock. rewrite CE, CC, CF. cbn [clock_source]. rewrite WV. cbn [mapM]. unfold clock_of. cbn [line_levels l_low_snr]. fold line_levels. unfold runner_cdr. cbn [line_config c_polarity c_cdr]. rewrite line_edges. cbn [bind]. rewrite RU. reflexivity. }
  assert (SA : Forall2 (sampled (Bands 0 0 1 1) 8 (7 / 2) (e_t_delta e0)) (waves (e_waveforms e0)) [line_signal]) by (rewrite WV, TD; constructor; [exact line_sampled|constructor]).
  set (eg := set_clock [line_clock] [[]] e0). set (sg := renumbered 2 line_signal 8).
  assert (RO : Forall2 (record_of (Bands 0 0 1 1) 8 (7 / 2) 0 (e_t_delta eg)) (combine (waves (e_waveforms eg)) [line_clock]) [sg]).
  { cbn [eg set_clock e_t_delta e_waveforms]. rewrite WV, TD. cbn [combine]. constructor; [|constructor]. split; cbn [fst snd].
    - intros first F0 j n J N. assert (first = 0) as -> by (cbn in F0; congruence). destruct line_sampled as (first' & FT & CA). cbn [fst snd] in FT. assert (first' = 0) as ->. { assert (Q : nth_error line_t 0 = nth_error (map (fun j0 => first' + INR j0 * 1) (seq 0 (length line_y))) 0) by (rewrite <- FT; reflexivity). cbn in Q. injection Q as Q. lra. }
      unfold sg, renumbered. cbn [snd]. apply CA; [exact J|]. unfold middle, sg, renumbered in *  . cbn [fst line_signal] in *  . unfold middle in N. cbn [fst] in N. rewrite plus_IZR. replace (7 / 2 + (IZR n + 2) * 8) with (7 / 2 + 2 * 8 + IZR n * 8) by lra. exact N.
    - intros i b NB. assert (IL : (i < 4)%nat) by (apply (nth_error_Some line_clock); congruence). rewrite line_clock_nth in NB by exact IL. assert (E : b = 15 + 1 / 2 + 4 + INR i * 8) by congruence. rewrite E. unfold middle, sg, renumbered, middle, line_signal. cbn [fst]. rewrite INR_IZR_INZ. apply Rabs_le. lra. }
  assert (END : end_time 1 0 56 = 55) by (unfold end_time; rewrite INR_IZR_INZ; cbn [Z.of_nat Pos.of_succ_nat Pos.succ]; lra).
  assert (LC : forall i, (i < 4)%nat -> nth_error line_clock i = Some (15 + 1 / 2 + 4 + INR i * 8)) by exact line_clock_nth.
  assert (WI : forall i, (i < 4)%nat -> well_inside 8 1 0 55 (15 + 1 / 2 + 4 + INR i * 8)). { intros i IL. apply Nat.lt_le_pred in IL. apply le_INR in IL. cbn [Nat.pred] in IL. rewrite (INR_IZR_INZ 3) in IL. cbn [Z.of_nat Pos.of_succ_nat Pos.succ] in IL. pose proof (pos_INR i). unfold well_inside. lra. }
  assert (HS : forall (P : decision -> Prop) i, (i < 4)%nat -> P (pattern sg (Z.of_nat i)) -> has_symbol 8 (e_t_delta eg) (combine (waves (e_waveforms eg)) [line_clock]) [sg] P).
  { intros P i IL HP. cbn [eg set_clock e_t_delta e_waveforms]. rewrite WV, TD. exists (line_t, line_y, line_clock), sg, 0, i, (15 + 1 / 2 + 4 + INR i * 8). split; [left; reflexivity|]. split; [reflexivity|]. split; [exact (LC i IL)|]. split; [|exact HP].
    cbn [fst snd]. change (length line_t) with 56%nat. rewrite END. apply WI. exact IL. }
  assert (PP : forall p, is_period [line_clock] p -> 0 < p) by (intros p I; rewrite (line_spacing p I); lra).
  assert (GIVEN : exists m e1, completed round6 fit aic new_cdr percentile cast fuel draw false eg m e1 [line_clock] 8 /\ width eg 8 = c_level_width (e_config eg)).
  { apply (C67_calculated round6 fit aic new_cdr percentile cast fuel draw eg line_levels [line_clock] 8 (Bands 0 0 1 1) 8 (7 / 2) 0 [sg]); cbn [eg set_clock e_t_delta e_waveforms e_config e_mask e_converted e_resolution e_clock_edges];
      rewrite ?CF, ?TD; [rewrite <- CF; exact FL|cbn; lra|reflexivity|exact line_period|exact PP|lra|rewrite WV; cbn; lia|rewrite WV; intros w [<-|[]]; discriminate|left; split; [exact MK|exact MC]|rewrite RS; lia|reflexivity|reflexivity|cbn; lra|cbn; lra|cbn; lra|cbn; lra|cbn; lra|lra| | | | |].
    - cbn [c_level_width line_config]. replace (8 - 8) with 0 by lra. rewrite Rabs_R0. lra.
    - cbn [eg set_clock e_t_delta e_waveforms] in RO. rewrite TD in RO. exact RO.
    - cbn [eg set_clock e_t_delta e_waveforms] in HS. rewrite TD in HS. refine (HS _ 0%nat ltac:(lia) _). reflexivity.
    - cbn [eg set_clock e_t_delta e_waveforms] in HS. rewrite TD in HS. refine (HS _ 1%nat ltac:(lia) _). reflexivity.
    - cbn [eg set_clock e_t_delta e_waveforms] in HS. rewrite TD in HS. refine (HS _ 1%nat ltac:(lia) _). discriminate. }
  destruct GIVEN as (m & eg1 & CO & WD). destruct (given_back round6 fit aic new_cdr percentile cast fuel draw e0 line_levels [line_clock] [[]] 8 m eg1 CE FL CK CO) as (e1 & CO0).
  assert (WD0 : width e0 8 = 3 / 10) by (change (width e0 8) with (width eg 8); rewrite WD; cbn [eg set_clock e_config]; rewrite CF; reflexivity).
  exists e0, m, e1, [line_clock]. split; [reflexivity|]. split; [exact SA|]. split; [exact CO0|].
  destruct (C67_recovered round6 fit aic new_cdr percentile cast fuel draw false e0 m e1 [line_clock] 8 line_levels (Bands 0 0 1 1) 8 (7 / 2) 0 [line_signal] CdrProps.insertion_sort 200000 true true 8 true CO0)
    as (_ & sent' & REN & CLK & parts & WP & _ & _ & _ & BS & _);
    [rewrite CF; reflexivity|rewrite WD0; lra|exact FL|cbn; lra|cbn; lra|reflexivity|exact CE|exact CC|intros es; rewrite CF; reflexivity|exact CdrProps.insertion_sorts|lia|lra|split; lra|lra|lra|lra|rewrite TD; lra|rewrite TD; lra|rewrite TD, WD0; lra|exact SA|].
  inversion REN as [|? s' ? r' (n0 & RN) R2 X1 X2]; subst. inversion R2; subst. clear REN R2.
  inversion CLK as [|? ? ? ? CL _ X1 X2]; subst. clear CLK.
  assert (n0 = 2)%Z as ->. { specialize (CL 0%nat _ (LC 0%nat ltac:(lia))). rewrite TD in CL. unfold middle, renumbered, middle, line_signal in CL. cbn [fst INR Z.of_nat] in CL. apply Rabs_le_between in CL. assert (1 < n0 < 3)%Z; [|lia]. split; apply lt_IZR; lra. }
  fold sg in BS. rewrite WV, TD in WP. cbn [combine] in WP. inversion WP as [|? part ? parts' (LP & first & F0 & W) WP' X1 X2]; subst. inversion WP'; subst. clear WP WP'. cbn [fst snd] in LP, F0, W.
  assert (first = 0) as -> by (cbn in F0; congruence). change (length line_t) with 56%nat in W. cbv zeta in W. rewrite END in W. change (length line_clock) with 4%nat in LP.
  assert (W0 : (fst part <= 0)%nat) by (apply (W 0%nat _ (LC 0%nat ltac:(lia))); apply WI; lia). assert (W3 : (3 < fst part + snd part)%nat) by (apply (W 3%nat _ (LC 3%nat ltac:(lia))); apply WI; lia).
  destruct part as [from num]. cbn [fst snd] in *  . assert (from = 0%nat) as -> by lia. assert (num = 4%nat) as -> by lia.
  rewrite BS; [reflexivity|]. constructor; [|constructor]. exists 1%Z. split; [right; left; reflexivity|discriminate].
Qed.
