(** C72: a concrete case, ten bits of 40 samples; the CDR searches for the
    period, starting 0.5 % off. *)
From Coq Require Import ZArith QArith Qreals Reals Bool List Lia Lra Sorted.
Import ListNotations.
From Verif Require Import Base Num RBool LinesSpec LinesModel LinesProps LinesRational StatsModel EyeSpec Pam2Model Pam2Spec EyeImageModel EyeRunModel EyeRunSpec EyeRunProofs EyeReportSpec EyeReportProps EyeDataSpec EyeDataProps EyeClockProps EyeTrackProps.
From Verif Require CdrModel CdrSpec CdrProps.
Local Open Scope R_scope.

Definition ten_bits : list bool := [true; false; true; true; false; false; true; false; true; false].
Definition ten_y : list Q := map (fun j => if nth (j / 40) ten_bits false then 1%Q else 0%Q) (seq 0 400).
Definition ten_t : list Q := map (fun j => inject_Z (Z.of_nat j)) (seq 0 400).
Definition ten_wave : ndarray :=
  NdArray [2; 400]%nat (fun i => match i with [0%nat; j] => Q2R (nth j ten_t 0%Q) | [1%nat; j] => Q2R (nth j ten_y 0%Q) | _ => 0 end).
Definition ten_signal : signal := (39 / 2, fun n => nth (Z.to_nat n) ten_bits false).
Definition searching : cdr := fun es => CdrModel.run Int_part CdrProps.insertion_sort 1000000 true false (Some (402 / 10)) es true.
Definition ten_config : config :=
  Config None (1 / 10) (Some 10000) BOTH (Some searching) 1 false (2 / 10) (5 / 100) (5 / 100) (2 / 10) (8 / 10) 0 true (Some 0) (Some 1) None.
Definition ten_edges : list Q := [79 # 2; 159 # 2; 319 # 2; 479 # 2; 559 # 2; 639 # 2; 719 # 2]%Q.

Lemma Q2R_int z : Q2R (inject_Z z) = IZR z.
Proof. unfold Q2R, inject_Z. cbn. lra. Qed.
Lemma sorted_Q2R l : sorted (map Q2R l) = map Q2R (sorted l).
Proof.
  assert (I : forall x acc, StatsModel.insert (Q2R x) (map Q2R acc) = map Q2R (StatsModel.insert x acc)).
  { intros x acc. induction acc as [|y acc IH]; [reflexivity|]. cbn [map StatsModel.insert]. cbn [nlt NumR NumQ]. rewrite Q2R_ltb. destruct (Qltb _ _); [reflexivity|]. cbn [map]. f_equal. exact IH. }
  unfold sorted. change (@nil R) with (map Q2R []) at 1. generalize (@nil Q). induction l as [|x l IH]; intros acc; [reflexivity|]. cbn [map fold_left]. rewrite I. apply IH.
Qed.
Lemma ten_found l : l_half l = 1 / 2 -> l_rising l = 11 / 20 -> l_falling l = 9 / 20 -> selected_edges l BOTH (map Q2R ten_t, map Q2R ten_y) = Ok (map Q2R ten_edges).
Proof.
  intros L1 L2 L3. unfold selected_edges. cbn [fst snd]. rewrite C09_edges_np_same by (rewrite !map_length; reflexivity).
  replace (l_rising l) with (Q2R (11 # 20)) by (rewrite L2; unfold Q2R; cbn; lra). replace (l_half l) with (Q2R (1 # 2)) by (rewrite L1; unfold Q2R; cbn; lra). replace (l_falling l) with (Q2R (9 # 20)) by (rewrite L3; unfold Q2R; cbn; lra). rewrite edges_Q2R.
  assert (E : edges ten_t ten_y (11 # 20)%Q (1 # 2)%Q (9 # 20)%Q = Ok (map Some [159 # 2; 479 # 2; 639 # 2]%Q, map Some [79 # 2; 319 # 2; 559 # 2; 719 # 2]%Q)) by (vm_compute; reflexivity).
  rewrite E. cbn [rmap reals bind fst snd map option_map finite_edges mapM filter_edge_polarity]. f_equal.
  change (sorted (map Q2R ([159 # 2; 479 # 2; 639 # 2; 79 # 2; 319 # 2; 559 # 2; 719 # 2]%Q)) = map Q2R ten_edges). rewrite sorted_Q2R. reflexivity.
Qed.
Lemma ten_edges_R : map Q2R ten_edges = [79 / 2; 159 / 2; 319 / 2; 479 / 2; 559 / 2; 639 / 2; 719 / 2].
Proof. unfold ten_edges, Q2R. cbn [map Qnum Qden]. reflexivity. Qed.
Lemma ten_y_nth j : (j < 400)%nat -> nth j ten_y 0%Q = if nth (j / 40) ten_bits false then 1%Q else 0%Q.
Proof. intros J. apply nth_error_nth. unfold ten_y. rewrite nth_error_map, (nth_error_nth' _ 0%nat) by (rewrite seq_length; exact J). rewrite seq_nth by exact J. reflexivity. Qed.
Lemma ten_t_nth j : (j < 400)%nat -> nth j ten_t 0%Q = inject_Z (Z.of_nat j).
Proof. intros J. apply nth_error_nth. unfold ten_t. rewrite nth_error_map, (nth_error_nth' _ 0%nat) by (rewrite seq_length; exact J). rewrite seq_nth by exact J. reflexivity. Qed.
Lemma tabulated (l : list Q) n : length l = n -> map (fun j => Q2R (nth j l 0%Q)) (seq 0 n) = map Q2R l.
Proof.
  intros <-. rewrite <- (map_map (fun j => nth j l 0%Q) Q2R). f_equal. apply nth_ext with (d := 0%Q) (d' := 0%Q); [rewrite map_length, seq_length; reflexivity|]. intros j J. rewrite map_length, seq_length in J.
  rewrite (nth_indep _ _ (nth 0%nat l 0%Q)) by (rewrite map_length, seq_length; exact J). rewrite (map_nth (fun j => nth j l 0%Q)), seq_nth by exact J. reflexivity.
Qed.

Example C72_calculated_met round6 fit aic new_cdr percentile cast fuel draw : exists e0 m e1 edges t sent',
  construct ten_wave None None None 10 (Some (Some ten_config)) = Ok e0
  /\ completed round6 fit aic new_cdr percentile cast fuel draw false e0 m e1 edges t /\ Rabs (t - 40) <= 3
  /\ Forall2 (fun s s' => exists n, s' = renumbered n s 40) [ten_signal] sent'
  /\ reports_data e1 m (Bands 0 0 1 1) t 1 (combine [(map Q2R ten_t, map Q2R ten_y)] edges) sent'.
Proof.
  destruct (construct ten_wave None None None 10 (Some (Some ten_config))) as [e0|] eqn:C; [|discriminate].
  assert (ALL : waves (e_waveforms e0) = [(map Q2R ten_t, map Q2R ten_y)] /\ e_t_delta e0 = 1 /\ e_config e0 = ten_config /\ e_clock_edges e0 = None /\ e_clocks e0 = None /\ e_mask e0 = None /\ e_converted e0 = None /\ e_resolution e0 = 10%Z).
  { injection C as <-. split; [rewrite <- (tabulated ten_t 400), <- (tabulated ten_y 400); reflexivity|]. split; [|repeat split].
    change ((Q2R (nth 399 ten_t 0%Q) - Q2R (nth 0 ten_t 0%Q)) / INR 399 = 1). rewrite !ten_t_nth, !Q2R_int by lia. rewrite INR_IZR_INZ. cbn [Z.of_nat Pos.of_succ_nat Pos.succ]. lra. }
  destruct ALL as (WV & TD & CF & CE & CC & MK & MC & RS). clear C.
  assert (FL : exists l, find_levels round6 fit aic (e_config e0) (all_samples (e_waveforms e0)) false = Ok l /\ l_half l = 1 / 2 /\ l_rising l = 11 / 20 /\ l_falling l = 9 / 20 /\ l_low_snr l = false).
  { rewrite CF. eexists. split; [reflexivity|]. split; [cbn; lra|]. split; [cbn; lra|]. split; [cbn; lra|]. cbn. destruct (Reqb (0 + 0) 0) eqn:E; [reflexivity|]. apply Reqb_false in E. lra. }
  destruct FL as (l & FL & L1 & L2 & L3 & SNR). pose proof (ten_found l L1 L2 L3) as FO. rewrite ten_edges_R in FO.
  assert (SA : sampled (Bands 0 0 1 1) 40 (39 / 2) 1 (map Q2R ten_t, map Q2R ten_y) ten_signal).
  { exists 0. cbn [fst snd]. split.
    - rewrite map_length. change (length ten_y) with 400%nat. unfold ten_t. rewrite map_map. apply map_ext. intros j. rewrite Q2R_int, INR_IZR_INZ. lra.
    - intros j n J N. rewrite map_length in J. change (length ten_y) with 400%nat in J. unfold middle, ten_signal in N. cbn [fst] in N. apply Rabs_le_between in N. rewrite INR_IZR_INZ in N.
      assert (B : (40 * n <= Z.of_nat j < 40 * n + 40)%Z). { split; [apply le_IZR|apply lt_IZR]; rewrite ?plus_IZR, mult_IZR; lra. }
      assert (Q : Z.to_nat n = (j / 40)%nat). { apply (Nat.div_unique j 40 (Z.to_nat n) (j - 40 * Z.to_nat n)); lia. }
      unfold shows, ten_signal. cbn [snd low_from low_to high_from high_to]. rewrite Q. rewrite (nth_indep _ _ (Q2R 0%Q)) by (rewrite map_length; exact J). rewrite map_nth, ten_y_nth by exact J.
      destruct (nth (j / 40) ten_bits false); unfold Q2R; cbn; lra. }
  assert (SEE : forall (P : decision -> Prop) n, (2 <= n <= 6)%Z -> P (pattern ten_signal n) -> in_sight l BOTH 40 1 [(map Q2R ten_t, map Q2R ten_y)] [ten_signal] P).
  { intros P n N PN. exists (map Q2R ten_t, map Q2R ten_y), ten_signal, [79 / 2; 159 / 2; 319 / 2; 479 / 2; 559 / 2; 639 / 2; 719 / 2], 0, n. split; [left; reflexivity|]. split; [exact FO|].
    assert (NR : 2 <= IZR n <= 6) by (split; apply IZR_le; lia). unfold middle, ten_signal, end_time. cbn [fst hd last]. rewrite map_length. change (length ten_t) with 400%nat. rewrite (INR_IZR_INZ 400). cbn [Z.of_nat Pos.of_succ_nat Pos.succ].
    split; [unfold ten_t; cbn [seq map nth_error]; f_equal; unfold Q2R; cbn; lra|]. split; [lra|]. split; [lra|]. split; [lra|]. exact PN. }
  assert (STE : steady 40 (3 / 2) [79 / 2; 159 / 2; 319 / 2; 479 / 2; 559 / 2; 639 / 2; 719 / 2]).
  { split; [|cbn; lra]. intros d D. cbn in D. repeat (destruct D as [<-|D]; [lra|]). destruct D. }
  destruct (C72_calculated round6 fit aic new_cdr percentile cast fuel draw e0 l (Bands 0 0 1 1) 40 (39 / 2) (3 / 2) [ten_signal] CdrProps.insertion_sort 1000000 true (402 / 10) true FL) as (m & e1 & edges & t & sent' & CO & TP & RN & _ & RD).
  all: rewrite ?CF, ?TD, ?WV.
  all: try (cbn [c_edge_lower c_edge_upper c_level_width c_cross_width c_polarity ten_config low_to high_from]; lra).
  all: try assumption; try reflexivity; try lia; try (left; split; assumption).
  - exact CdrProps.insertion_sorts.
  - intros w [<-|[]]. exists [79 / 2; 159 / 2; 319 / 2; 479 / 2; 559 / 2; 639 / 2; 719 / 2]. split; [exact FO|]. split; [cbn; lia|]. split; [exact STE|]. unfold searchable. cbn [hd last]. lra.
  - exists (map Q2R ten_t, map Q2R ten_y), [79 / 2; 159 / 2; 319 / 2; 479 / 2; 559 / 2; 639 / 2; 719 / 2]. split; [left; reflexivity|]. split; [exact FO|]. cbn [hd last]. lra.
  - constructor; [exact SA|constructor].
  - apply (SEE _ 2%Z); [lia|reflexivity].
  - apply (SEE _ 4%Z); [lia|reflexivity].
  - apply (SEE _ 2%Z); [lia|discriminate].
  - rewrite TD, WV in RD. exists e0, m, e1, edges, t, sent'. split; [reflexivity|]. split; [exact CO|]. split; [rewrite TD in TP; eapply Rle_trans; [exact TP|]; lra|]. split; [exact RN|exact RD].
Qed.
Print Assumptions C72_calculated_met.
