(** C73: concrete cases.  A record of the bits 0 1 1 0 with slow edges, and the
    ten bits of C72. *)
From Coq Require Import ZArith QArith Qreals Reals Bool List Lia Lra Sorted.
Import ListNotations.
From Verif Require Import Base Num RBool LinesSpec LinesModel LinesProps LinesRational StatsModel EyeSpec Pam2Model Pam2Spec EyeImageModel EyeRunModel EyeRunSpec EyeRunProofs EyeLevelsProps EyeReportSpec EyeReportProps EyeDataSpec EyeDataProps EyeClockProps EyeOpenSpec EyeOpenProps EyeTrackProps EyeTrackExample EyeEdgesSpec EyeEdgesProofs EyeEdgesProps.
From Verif Require CdrModel CdrSpec CdrProps.
Local Open Scope R_scope.

Definition slow_bits : list bool := [false; true; true; false].
Definition slow_signal : signal := (1, fun n => nth (Z.to_nat n) slow_bits false).
Definition slow_y : list R := [0; 0; 0; 1 / 2; 1; 1; 1; 7 / 10; 1; 1; 1; 1 / 2; 0; 0; 0].

Lemma slow_clean : clean (6 / 10) (4 / 10) 4 1 1 0 slow_y slow_signal.
Proof.
  assert (NEAR : forall j n, Rabs (0 + INR j * 1 - middle 4 slow_signal n) <= 1 -> (4 * n <= Z.of_nat j <= 4 * n + 2)%Z).
  { intros j n N. apply Rabs_between in N. unfold middle, slow_signal in N. cbn [fst] in N. rewrite INR_IZR_INZ in N. split; apply le_IZR; rewrite ?plus_IZR, mult_IZR; lra. }
  assert (BETW : forall j n, middle 4 slow_signal (n - 1) + 1 < 0 + INR j * 1 < middle 4 slow_signal n - 1 -> (Z.of_nat j = 4 * n - 1)%Z).
  { intros j n (A & B). unfold middle, slow_signal in A, B. cbn [fst] in A, B. rewrite INR_IZR_INZ in A, B. rewrite minus_IZR in A. assert (4 * n - 2 < Z.of_nat j < 4 * n)%Z; [|lia]. split; apply lt_IZR; rewrite ?minus_IZR, mult_IZR; lra. }
  assert (LEN : forall j v, nth_error slow_y j = Some v -> (j < 15)%nat) by (intros j v E; change 15%nat with (length slow_y); apply nth_error_Some; congruence).
  split; [|split].
  - intros j n v E N. apply NEAR in N. pose proof (LEN j v E) as L. assert (C : (n = 0 \/ n = 1 \/ n = 2 \/ n = 3)%Z) by lia.
    destruct C as [->|[->|[->| ->]]]; [change (v < 4 / 10)|change (6 / 10 < v)|change (6 / 10 < v)|change (v < 4 / 10)]; (do 15 (destruct j as [|j]; [try lia; injection E as <-; lra|])); lia.
  - intros j n v E B S. apply BETW in B. pose proof (LEN j v E) as L. assert (C : (n = 1 \/ n = 2 \/ n = 3)%Z) by lia. destruct C as [->|[->| ->]]; [discriminate S| |discriminate S]. assert (j = 7%nat) by lia. subst j. injection E as <-. change (~ (7 / 10 < 4 / 10)). lra.
  - intros j j' n v v' _ _ L B B'. apply BETW in B. apply BETW in B'. lia.
Qed.
Lemma slow_record p l ns : l_rising l = 6 / 10 -> l_falling l = 4 / 10 -> transitions p slow_signal 0 3 ns ->
  clean_record p (l_rising l) (l_falling l) 4 1 1 (map (fun j => 0 + INR j * 1) (seq 0 15), slow_y) slow_signal 0 3 ns.
Proof.
  intros -> -> T. exists 0. split; [reflexivity|]. split; [exact slow_clean|]. split; [|exact T]. split; [discriminate|]. cbn [snd]. change (length slow_y - 1)%nat with 14%nat. unfold middle, slow_signal. cbn [fst]. rewrite INR_IZR_INZ. cbn [Z.of_nat Pos.of_succ_nat Pos.succ]. split; apply Rabs_le; lra.
Qed.
(** The rising edge at the start of symbol 1 and the falling one of symbol 3. *)
Example C73_edges_met l : l_rising l = 6 / 10 -> l_half l = 1 / 2 -> l_falling l = 4 / 10 ->
  let w := (map (fun j => 0 + INR j * 1) (seq 0 15), slow_y) in
  transitions BOTH slow_signal 0 3 [1; 3]%Z /\ transitions RISING slow_signal 0 3 [1]%Z /\ ordered l /\ clean_record BOTH (l_rising l) (l_falling l) 4 1 1 w slow_signal 0 3 [1; 3]%Z
  /\ exists a b, selected_edges l BOTH w = Ok [a; b] /\ selected_edges l RISING w = Ok [a] /\ Rabs (a - 3) <= 2 /\ Rabs (b - 11) <= 2.
Proof.
  intros L1 L2 L3 w.
  assert (TB : transitions BOTH slow_signal 0 3 [1; 3]%Z).
  { split; [repeat constructor; lia|]. intros n. split; [intros [<-|[<-|[]]]; (split; [lia|split; [discriminate|exact I]])|]. intros (N & C & _). assert (Q : (n = 1 \/ n = 2 \/ n = 3)%Z) by lia. destruct Q as [->|[->| ->]]; first [cbn; tauto|exfalso; apply C; reflexivity|discriminate D]. }
  assert (TR : transitions RISING slow_signal 0 3 [1]%Z).
  { split; [repeat constructor; lia|]. intros n. split; [intros [<-|[]]; (split; [lia|split; [discriminate|reflexivity]])|]. intros (N & C & D). assert (Q : (n = 1 \/ n = 2 \/ n = 3)%Z) by lia. destruct Q as [->|[->| ->]]; first [cbn; tauto|exfalso; apply C; reflexivity|discriminate D]. }
  assert (OR : ordered l) by (unfold ordered; rewrite L1, L2, L3; lra). split; [exact TB|]. split; [exact TR|]. split; [exact OR|]. pose proof (slow_record BOTH l _ L1 L3 TB) as CB. pose proof (slow_record RISING l _ L1 L3 TR) as CR. split; [exact CB|].
  destruct (C73_edges l BOTH 4 1 1 w slow_signal 0 3 _ ltac:(lra) ltac:(lra) ltac:(lra) ltac:(lra) OR CB) as (es & E & F). destruct (C73_edges l RISING 4 1 1 w slow_signal 0 3 _ ltac:(lra) ltac:(lra) ltac:(lra) ltac:(lra) OR CR) as (rs & E' & F').
  inversion F as [|a n1 es' ns' A FA]; subst. inversion FA as [|b n2 es2 ns2 B FB]; subst. inversion FB; subst. inversion F' as [|r n1 rs' ns' R' FR]; subst. inversion FR; subst.
  destruct (proj2 (C57_clock_edges l (fst w) slow_y eq_refl ltac:(discriminate) (grid_sorted 1 0 slow_y ltac:(lra)) OR) _ E) as (r' & f' & ER & EF & PM). assert (r' = [r]) as -> by (change (fst w, slow_y) with w in ER; congruence).
  unfold boundary, middle, slow_signal in A, B, R'. cbn [fst] in A, B, R'. assert (AR : r = a). { assert (I : In r [a; b]) by (apply (Permutation.Permutation_in _ PM); left; reflexivity). destruct I as [->|[<-|[]]]; [reflexivity|]. apply Rabs_between in R'. apply Rabs_between in B. lra. }
  subst r. exists a, b. split; [exact E|]. split; [exact E'|]. replace (3) with (1 + 1 * 4 - 4 / 2) at 1 by lra. split; [eapply Rle_trans; [exact A|]; lra|]. replace 11 with (1 + 3 * 4 - 4 / 2) by lra. eapply Rle_trans; [exact B|]. lra.
Qed.
Print Assumptions C73_edges_met.

Lemma ten_in n j : Rabs (0 + INR j * 1 - middle 40 ten_signal n) <= 39 / 2 -> (40 * n <= Z.of_nat j < 40 * n + 40)%Z.
Proof. intros N. unfold middle, ten_signal in N. cbn [fst] in N. apply Rabs_between in N. rewrite INR_IZR_INZ in N. split; [apply le_IZR|apply lt_IZR]; rewrite ?plus_IZR, mult_IZR; lra. Qed.
Lemma ten_shows j n v : nth_error (map Q2R ten_y) j = Some v -> (40 * n <= Z.of_nat j < 40 * n + 40)%Z -> v = if snd ten_signal n then 1 else 0.
Proof.
  intros E B. assert (J : (j < 400)%nat). { change 400%nat with (length ten_y). rewrite <- (map_length Q2R). apply nth_error_Some. congruence. }
  assert (Q : Z.to_nat n = (j / 40)%nat). { apply (Nat.div_unique j 40 (Z.to_nat n) (j - 40 * Z.to_nat n)); lia. }
  rewrite nth_error_map, (nth_error_nth' _ 0%Q) in E by exact J. rewrite ten_y_nth in E by exact J. unfold ten_signal. cbn [snd]. rewrite Q. cbn [option_map] in E. assert (V : Q2R (if nth (j / 40) ten_bits false then 1%Q else 0%Q) = v) by congruence. rewrite <- V. clear. destruct (nth (j / 40) ten_bits false); unfold Q2R; cbn; lra.
Qed.
Lemma ten_clean rise fall : 0 < fall -> rise < 1 -> clean rise fall 40 (39 / 2) 1 0 (map Q2R ten_y) ten_signal.
Proof.
  intros F R. assert (NO : forall n j, middle 40 ten_signal (n - 1) + 39 / 2 < 0 + INR j * 1 < middle 40 ten_signal n - 39 / 2 -> False).
  { intros n j (A & B). unfold middle, ten_signal in A, B. cbn [fst] in A, B. rewrite INR_IZR_INZ in A, B. rewrite minus_IZR in A. assert (40 * n - 1 < Z.of_nat j < 40 * n)%Z; [|lia]. split; apply lt_IZR; rewrite ?minus_IZR, mult_IZR; lra. }
  split; [|split].
  - intros j n v E N. rewrite (ten_shows j n v E (ten_in n j N)). unfold beyond. destruct (snd ten_signal n); assumption.
  - intros j n v _ B. destruct (NO n j B).
  - intros j j' n v v' _ _ _ B. destruct (NO n j B).
Qed.
Example C73_calculated_met round6 fit aic new_cdr percentile cast fuel draw : exists e0 m e1 edges t sent',
  construct ten_wave None None None 10 (Some (Some ten_config)) = Ok e0
  /\ completed round6 fit aic new_cdr percentile cast fuel draw false e0 m e1 edges t /\ Rabs (t - 40) <= 3
  /\ Forall2 (fun s s' => exists n, s' = renumbered n s 40) [ten_signal] sent'
  /\ reports_data e1 m (Bands 0 0 1 1) t 1 (combine [(map Q2R ten_t, map Q2R ten_y)] edges) sent'.
Proof.
  destruct (construct ten_wave None None None 10 (Some (Some ten_config))) as [e0|] eqn:C; [|discriminate].
  assert (ALL : waves (e_waveforms e0) = [(map Q2R ten_t, map Q2R ten_y)] /\ e_t_delta e0 = 1 /\ e_config e0 = ten_config /\ e_clock_edges e0 = None /\ e_clocks e0 = None /\ e_mask e0 = None /\ e_converted e0 = None /\ e_resolution e0 = 10%Z).
  { injection C as <-. split; [rewrite <- (tabulated ten_t 400), <- (tabulated ten_y 400); reflexivity|]. split; [|repeat split].
    change ((Q2R (nth 399 ten_t 0%Q) - Q2R (nth 0 ten_t 0%Q)) / INR 399 = 1). rewrite !ten_t_nth, !Q2R_int by lia. rewrite INR_IZR_INZ. cbn [Z.of_nat Pos.of_succ_nat Pos.succ]. lra. }
  destruct ALL as (WV & TD & CF & CE & CC & MK & MC & RS). clear C.
  assert (FL : exists l, find_levels round6 fit aic (e_config e0) (all_samples (e_waveforms e0)) false = Ok l /\ l_half l = 1 / 2 /\ l_rising l = 11 / 20 /\ l_falling l = 9 / 20 /\ l_low_snr l = false).
  { rewrite CF. eexists. split; [reflexivity|]. split; [cbn; lra|]. split; [cbn; lra|]. split; [cbn; lra|]. cbn. destruct (Reqb (0 + 0) 0) eqn:E; [reflexivity|]. apply Reqb_false in E. lra. }
  destruct FL as (l & FL & L1 & L2 & L3 & SNR).
  assert (TG : map Q2R ten_t = map (fun j => 0 + INR j * 1) (seq 0 (length (map Q2R ten_y)))).
  { rewrite map_length. change (length ten_y) with 400%nat. unfold ten_t. rewrite map_map. apply map_ext. intros j. rewrite Q2R_int, INR_IZR_INZ. lra. }
  assert (SA : sampled (Bands 0 0 1 1) 40 (39 / 2) 1 (map Q2R ten_t, map Q2R ten_y) ten_signal).
  { exists 0. split; [exact TG|]. intros j n J N. cbn [snd] in *  . assert (E : nth_error (map Q2R ten_y) j = Some (nth j (map Q2R ten_y) 0)) by (apply nth_error_nth'; exact J). rewrite (ten_shows j n _ E (ten_in n j N)). unfold shows. cbn [low_from low_to high_from high_to]. destruct (snd ten_signal n); lra. }
  assert (CR : clean_record BOTH (l_rising l) (l_falling l) 40 (39 / 2) 1 (map Q2R ten_t, map Q2R ten_y) ten_signal 0 9 [1; 2; 4; 6; 7; 8; 9]%Z).
  { exists 0. split; [exact TG|]. split; [apply ten_clean; lra|]. split.
    - split; [discriminate|]. cbn [snd]. rewrite map_length. change (length ten_y - 1)%nat with 399%nat. unfold middle, ten_signal. cbn [fst]. rewrite INR_IZR_INZ. cbn [Z.of_nat Pos.of_succ_nat Pos.succ]. split; apply Rabs_le; lra.
    - split; [repeat constructor; lia|]. intros n. split; [intros H; repeat (destruct H as [<-|H]; [split; [lia|split; [discriminate|exact I]]|]); destruct H|].
      intros (N & D & _). assert (Q : (n = 1 \/ n = 2 \/ n = 3 \/ n = 4 \/ n = 5 \/ n = 6 \/ n = 7 \/ n = 8 \/ n = 9)%Z) by lia. repeat (destruct Q as [->|Q]; [first [cbn; tauto|exfalso; apply D; reflexivity]|]). subst n. cbn. tauto. }
  assert (SEE : forall (P : decision -> Prop) n, (3 <= n <= 6)%Z -> P (pattern ten_signal n) ->
    exists s n0 n1 ns k, In (s, (n0, n1, ns)) [(ten_signal, (0, 9, [1; 2; 4; 6; 7; 8; 9]))]%Z /\ (hd 0 ns <= k < last ns 0)%Z /\ (n0 + 3 <= k <= n1 - 3)%Z /\ P (pattern s k)).
  { intros P n N PN. exists ten_signal, 0%Z, 9%Z, [1; 2; 4; 6; 7; 8; 9]%Z, n. split; [left; reflexivity|]. cbn [hd last]. split; [lia|]. split; [lia|exact PN]. }
  destruct (C73_calculated round6 fit aic new_cdr percentile cast fuel draw e0 l (Bands 0 0 1 1) 40 (39 / 2) (4 / 3) [(ten_signal, (0, 9, [1; 2; 4; 6; 7; 8; 9]))]%Z CdrProps.insertion_sort 1000000 true (402 / 10) true FL) as (m & e1 & edges & t & sent' & CO & TP & RN & _ & RD).
  all: rewrite ?CF, ?TD, ?WV.
  all: try (cbn [c_edge_lower c_edge_upper c_level_width c_cross_width c_polarity ten_config low_to high_from]; lra).
  all: try assumption; try reflexivity; try lia; try (left; split; assumption).
  - unfold ordered. lra.
  - exact CdrProps.insertion_sorts.
  - constructor; [|constructor]. split; [exact SA|]. split; [exact CR|]. split; [cbn; lia|]. split; [|split; [cbn; lra|cbn; lia]].
    intros i a b A B. do 6 (destruct i as [|i]; [injection A as <-; injection B as <-; lia|]). destruct i; cbn in B; [discriminate|destruct i; discriminate].
  - apply (SEE (fun p => cur p = true) 3%Z); [lia|reflexivity].
  - apply (SEE (fun p => cur p = false) 4%Z); [lia|reflexivity].
  - apply (SEE (fun p => prev p <> cur p) 4%Z); [lia|discriminate].
  - exists ten_signal, 0%Z, 9%Z, [1; 2; 4; 6; 7; 8; 9]%Z. split; [left; reflexivity|cbn; lia].
  - rewrite TD, WV in RD. exists e0, m, e1, edges, t, sent'. split; [reflexivity|]. split; [exact CO|]. split; [rewrite TD in TP; eapply Rle_trans; [exact TP|]; lra|]. split; [|exact RD].
    inversion RN as [|? s' ? ? (n & ->) RN']; subst. inversion RN'; subst. constructor; [exists n; reflexivity|constructor].
Qed.
Print Assumptions C73_calculated_met.

(** The same without levels configured. *)
Definition free_config : config :=
  Config None (1 / 10) (Some 10000) BOTH (Some searching) 1 false (2 / 10) (5 / 100) (5 / 100) (2 / 10) (8 / 10) 0 true None None None.
Lemma ten_samples v : In v (map Q2R ten_y) -> v = 0 \/ v = 1.
Proof. intros V. apply in_map_iff in V. destruct V as (q & <- & I). unfold ten_y in I. apply in_map_iff in I. destruct I as (j & <- & _). destruct (nth (j / 40) ten_bits false); unfold Q2R; cbn; lra. Qed.
Lemma ten_range : ranges 0 1 (map Q2R ten_y).
Proof.
  assert (A : forall j v, nth_error ten_y j = Some v -> In (Q2R v) (map Q2R ten_y)) by (intros j v E; apply in_map; exact (nth_error_In _ _ E)).
  split; [replace 0 with (Q2R 0%Q) by (unfold Q2R; cbn; lra); apply (A 40%nat); reflexivity|]. split; [replace 1 with (Q2R 1%Q) by (unfold Q2R; cbn; lra); apply (A 0%nat); reflexivity|]. intros v V. destruct (ten_samples v V); lra.
Qed.
Example C73_open_met round6 aic new_cdr percentile cast fuel draw : exists e0 m e1 edges t sent',
  construct ten_wave None None None 10 (Some (Some free_config)) = Ok e0 /\ wide_open e0 (Bands 0 0 1 1)
  /\ completed round6 average_fit aic new_cdr percentile cast fuel draw false e0 m e1 edges t /\ Rabs (t - 40) <= 3
  /\ Forall2 (fun s s' => exists n, s' = renumbered n s 40) [ten_signal] sent'
  /\ reports_data e1 m (Bands 0 0 1 1) t 1 (combine [(map Q2R ten_t, map Q2R ten_y)] edges) sent'.
Proof.
  destruct (construct ten_wave None None None 10 (Some (Some free_config))) as [e0|] eqn:C; [|discriminate].
  assert (ALL : waves (e_waveforms e0) = [(map Q2R ten_t, map Q2R ten_y)] /\ e_t_delta e0 = 1 /\ e_config e0 = free_config /\ e_clock_edges e0 = None /\ e_clocks e0 = None /\ e_mask e0 = None /\ e_converted e0 = None /\ e_resolution e0 = 10%Z).
  { injection C as <-. split; [rewrite <- (tabulated ten_t 400), <- (tabulated ten_y 400); reflexivity|]. split; [|repeat split].
    change ((Q2R (nth 399 ten_t 0%Q) - Q2R (nth 0 ten_t 0%Q)) / INR 399 = 1). rewrite !ten_t_nth, !Q2R_int by lia. rewrite INR_IZR_INZ. cbn [Z.of_nat Pos.of_succ_nat Pos.succ]. lra. }
  destruct ALL as (WV & TD & CF & CE & CC & MK & MC & RS). clear C.
  assert (AS : all_samples (e_waveforms e0) = map Q2R ten_y) by (unfold all_samples; rewrite WV; cbn [map concat snd]; apply app_nil_r).
  assert (LN : INR (length (map Q2R ten_y)) <= 10000) by (rewrite map_length; change (length ten_y) with 400%nat; rewrite INR_IZR_INZ; cbn [Z.of_nat Pos.of_succ_nat Pos.succ]; lra).
  assert (WO : wide_open e0 (Bands 0 0 1 1)).
  { exists 0, 1. rewrite CF, AS. split; [split; reflexivity|]. split; [reflexivity|]. split; [exact ten_range|]. split; [lra|]. split; [left; exact LN|]. cbn. lra. }
  assert (TG : map Q2R ten_t = map (fun j => 0 + INR j * 1) (seq 0 (length (map Q2R ten_y)))).
  { rewrite map_length. change (length ten_y) with 400%nat. unfold ten_t. rewrite map_map. apply map_ext. intros j. rewrite Q2R_int, INR_IZR_INZ. lra. }
  assert (SM : smooth_record BOTH (Bands 0 0 1 1) 40 (39 / 2) 1 (map Q2R ten_t, map Q2R ten_y) ten_signal 0 9 [1; 2; 4; 6; 7; 8; 9]%Z).
  { assert (NO : forall n j, middle 40 ten_signal (n - 1) + 39 / 2 < 0 + INR j * 1 < middle 40 ten_signal n - 39 / 2 -> False).
    { intros n j (A & B). unfold middle, ten_signal in A, B. cbn [fst] in A, B. rewrite INR_IZR_INZ in A, B. rewrite minus_IZR in A. assert (40 * n - 1 < Z.of_nat j < 40 * n)%Z; [|lia]. split; apply lt_IZR; rewrite ?minus_IZR, mult_IZR; lra. }
    exists 0. split; [exact TG|]. split; [|split; [|split]].
    - intros j n J N. cbn [snd] in *  . assert (E : nth_error (map Q2R ten_y) j = Some (nth j (map Q2R ten_y) 0)) by (apply nth_error_nth'; exact J). rewrite (ten_shows j n _ E (ten_in n j N)). unfold shows. cbn [low_from low_to high_from high_to]. destruct (snd ten_signal n); lra.
    - split; [intros j n v _ B; destruct (NO n j B)|intros j j' n v v' _ _ _ B; destruct (NO n j B)].
    - split; [discriminate|]. cbn [snd]. rewrite map_length. change (length ten_y - 1)%nat with 399%nat. unfold middle, ten_signal. cbn [fst]. rewrite INR_IZR_INZ. cbn [Z.of_nat Pos.of_succ_nat Pos.succ]. split; apply Rabs_le; lra.
    - split; [repeat constructor; lia|]. intros n. split; [intros H; repeat (destruct H as [<-|H]; [split; [lia|split; [discriminate|exact I]]|]); destruct H|].
      intros (N & D & _). assert (Q : (n = 1 \/ n = 2 \/ n = 3 \/ n = 4 \/ n = 5 \/ n = 6 \/ n = 7 \/ n = 8 \/ n = 9)%Z) by lia. repeat (destruct Q as [->|Q]; [first [cbn; tauto|exfalso; apply D; reflexivity]|]). subst n. cbn. tauto. }
  assert (SEE : forall (P : decision -> Prop) n, (3 <= n <= 6)%Z -> P (pattern ten_signal n) ->
    exists s n0 n1 ns k, In (s, (n0, n1, ns)) [(ten_signal, (0, 9, [1; 2; 4; 6; 7; 8; 9]))]%Z /\ (hd 0 ns <= k < last ns 0)%Z /\ (n0 + 3 <= k <= n1 - 3)%Z /\ P (pattern s k)).
  { intros P n N PN. exists ten_signal, 0%Z, 9%Z, [1; 2; 4; 6; 7; 8; 9]%Z, n. split; [left; reflexivity|]. cbn [hd last]. split; [lia|]. split; [lia|exact PN]. }
  assert (QU : forall l, find_levels round6 average_fit aic (e_config e0) (all_samples (e_waveforms e0)) false = Ok l -> l_low_snr l = false).
  { intros l FL. refine (C73_quiet round6 average_fit aic (e_config e0) _ false l 0 1 average_fit_averages _ _ _ _ _ FL); rewrite ?CF, ?AS.
    - split; reflexivity.
    - intros n Q. injection Q as <-. exact LN.
    - exact ten_range.
    - lra.
    - intros v V. destruct (ten_samples v V); lra. }
  destruct (C73_open round6 average_fit aic new_cdr percentile cast fuel draw e0 (Bands 0 0 1 1) 40 (39 / 2) (4 / 3) [(ten_signal, (0, 9, [1; 2; 4; 6; 7; 8; 9]))]%Z CdrProps.insertion_sort 1000000 true (402 / 10) true average_fit_averages) as (m & e1 & edges & t & sent' & CO & TP & RN & _ & RD).
  all: try exact QU.
  all: rewrite ?CF, ?TD, ?WV.
  all: try (cbn [c_edge_lower c_edge_upper c_level_width c_cross_width c_polarity free_config low_to high_from]; lra).
  all: try assumption; try reflexivity; try lia; try (left; split; assumption).
  - intros j [|x l] _ N; [congruence|eexists; reflexivity].
  - exact CdrProps.insertion_sorts.
  - constructor; [|constructor]. split; [exact SM|]. split; [cbn; lia|]. split; [|split; [cbn; lra|cbn; lia]].
    intros i a b A B. do 6 (destruct i as [|i]; [injection A as <-; injection B as <-; lia|]). destruct i; cbn in B; [discriminate|destruct i; discriminate].
  - apply (SEE (fun p => cur p = true) 3%Z); [lia|reflexivity].
  - apply (SEE (fun p => cur p = false) 4%Z); [lia|reflexivity].
  - apply (SEE (fun p => prev p <> cur p) 4%Z); [lia|discriminate].
  - exists ten_signal, 0%Z, 9%Z, [1; 2; 4; 6; 7; 8; 9]%Z. split; [left; reflexivity|cbn; lia].
  - rewrite TD, WV in RD. exists e0, m, e1, edges, t, sent'. split; [reflexivity|]. split; [exact WO|]. split; [exact CO|]. split; [rewrite TD in TP; eapply Rle_trans; [exact TP|]; lra|]. split; [|exact RD].
    inversion RN as [|? s' ? ? (n & ->) RN']; subst. inversion RN'; subst. constructor; [exists n; reflexivity|constructor].
Qed.
Print Assumptions C73_open_met.
