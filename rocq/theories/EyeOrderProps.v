(** C70: the order of the records does not matter. *)
From Coq Require Import ZArith Reals Bool List Lia Lra FunctionalExtensionality Permutation.
Import ListNotations.
From Verif Require AutoProofs EyeLevelsProps UncertainProofs EyeRProofs EyeUnitsProps.
From Verif Require Import Base Num RBool LinesModel StatsModel MaskModel EyeModel EyeSpec Pam2Model Pam2Spec MathModel EyeImageModel EyeRunModel EyeRunSpec EyeRunProofs EyeUnitsSpec EyeOrderSpec EyeOrderProofs EyeReportSpec EyeReportProps EyeDataSpec EyeDataProps.
Local Open Scope R_scope.
Local Open Scope result_scope.

Lemma reordered_back p w w' : order (dim w 0) p -> reordered p w w' -> reordered (back (dim w 0) p) w' w.
Proof.
  intros O (T & S & A). split; [congruence|]. split; [congruence|]. intros i k j I. assert (D : dim w' 0 = dim w 0) by (unfold dim; rewrite S; reflexivity). rewrite D in I. destruct (back_nth (dim w 0) p i O I) as (B1 & B2). rewrite A by exact B2. rewrite B1. reflexivity.
Qed.
(** ** Construction *)
Lemma fresh w ck ce mk res cfg e : length (shape w) = 3%nat -> construct w ck ce mk res cfg = Ok e ->
  e_waveforms e = w /\ e_mask e = mk /\ e_resolution e = res /\ e_config e = (match cfg with Some (Some c) => c | _ => default_config end) /\ e_masked e = (None, [[]], []) /\ e_ties e = None /\ e_edge_dir e = None
  /\ (1 <= dim w 0)%nat /\ (dim w 2 <> 1)%nat
  /\ e_t_delta e = (at_ w [0%nat; 0%nat; (dim w 2 - 1)%nat] - at_ w [0%nat; 0%nat; 0%nat]) / INR (dim w 2 - 1)
  /\ (forall c, ck = Some c -> length (shape c) = 3%nat -> e_clocks e = Some c /\ dim c 0 = dim w 0) /\ (ck = None -> e_clocks e = None)
  /\ (forall l, ce = Some (ListOf l) -> e_clock_edges e = Some (map snd l) /\ length l = dim w 0) /\ (ce = None -> e_clock_edges e = None) /\ ce <> Some NotAList.
Proof.
  intros T. unfold construct. assert (W : as_3d w = Ok w) by (unfold as_3d; rewrite T; reflexivity). rewrite W. cbn [bind]. destruct (negb _ || _); [discriminate|].
  destruct (match ck with None => Ok None | Some c => _ end) as [c|] eqn:CK; [|discriminate]. cbn [bind]. destruct (match ce with None => Ok None | Some _ => _ end) as [ed|] eqn:CE; [|discriminate]. cbn [bind]. destruct (res <? 0)%Z; [discriminate|]. destruct (dim w 0 =? 0)%nat eqn:D0; [discriminate|]. destruct (dim w 2 =? 1)%nat eqn:D2; [discriminate|]. apply Nat.eqb_neq in D0, D2.
  destruct cfg as [[cf|]|]; [| discriminate|]; cbn [bind]; intros E; injection E as <-; cbn [e_waveforms e_mask e_resolution e_config e_ties e_edge_dir e_t_delta e_clocks e_clock_edges]; repeat (split; [first [reflexivity | lia]|]).
  all: split; [intros c' -> T'; unfold as_3d in CK; rewrite T' in CK; cbn [bind] in CK; destruct (list_eq_dec _ _ _) as [SE|]; [|discriminate]; injection CK as <-; split; [reflexivity|unfold dim; rewrite SE; reflexivity]|].
  all: split; [intros ->; congruence|].
  all: split; [intros l ->; destruct (negb (length l =? dim w 0)%nat) eqn:LN; [discriminate|]; apply negb_false_iff, Nat.eqb_eq in LN; destruct (get l 0) as [x|]; [|discriminate]; cbn [bind] in CE; destruct (negb (fst x)); [discriminate|]; injection CE as <-; split; [reflexivity|exact LN]|].
  all: split; [intros ->; congruence|intros ->; discriminate].
Qed.

Section Order.
Variable round6 : R -> R.
Variable fit : nat -> list R -> result (list (R * R * R)).
Variable aic : list (R * R * R) -> list R -> R.
Variable new_cdr : R -> cdr.
Variable percentile : list R -> R -> R.
Variable cast : R -> Z.
Variable fuel : nat.
Variable draw : drawing.
Let calculate := calculate round6 fit aic new_cdr percentile cast fuel draw.
Let find_levels := find_levels round6 fit aic.

(** Two objects, the second with the records of the first in order p. *)
Definition pair_of (p : list nat) (w w' : ndarray) (ck ck' : option ndarray) (ce ce' : option edges_arg) (mk : option (mask R)) (res : Z) (cfg : option (option config)) (e e' : eye) : Prop :=
  order (dim w 0) p /\ reordered p w w' /\ reordered_clocks p ck ck' /\ reordered_edges p ce ce'
  /\ construct w ck ce mk res cfg = Ok e /\ construct w' ck' ce' mk res cfg = Ok e'.
(** All records take the same time. *)
Definition same_duration (w : ndarray) : Prop := forall i, (i < dim w 0)%nat ->
  at_ w [i; 0%nat; (dim w 2 - 1)%nat] - at_ w [i; 0%nat; 0%nat] = at_ w [0%nat; 0%nat; (dim w 2 - 1)%nat] - at_ w [0%nat; 0%nat; 0%nat].

Lemma goes p w w' ck ck' ce ce' mk res cfg e e' d m f : (forall q, of_values (fun l => percentile l q)) -> pair_of p w w' ck ck' ce ce' mk res cfg e e' -> same_duration w ->
  find_levels (e_config e) (all_samples w') d = find_levels (e_config e) (all_samples w) d ->
  calculate d e = (Ok m, f) -> exists f', calculate d e' = (Ok m, f') /\ same_results p f f'.
Proof.
  intros PV (O & RW & RC & RE & C & C') SD FLE CA. pose proof RW as (T & S & A). assert (T' : length (shape w') = 3%nat) by congruence. assert (D : forall k, dim w' k = dim w k) by (intros k; unfold dim; rewrite S; reflexivity).
  destruct (fresh w ck ce mk res cfg e T C) as (W & MK & RS & CF & MS & TI & ED & DP & D2 & TD & CK & CKN & CE & CEN & CEL). destruct (fresh w' ck' ce' mk res cfg e' T' C') as (W' & MK' & RS' & CF' & MS' & TI' & ED' & DP' & _ & TD' & CK' & CKN' & CE' & CEN' & CEL').
  destruct (calculate_inv round6 fit aic new_cdr percentile cast fuel draw d e m f CA) as (l & edges & t & h & dirs & im & FL & CL & SP & PL & RES & GM & GH & GI & GD & GC & SI & CAL & _).
  assert (WW : waves w' = pick p (waves w)) by (apply waves_reordered; assumption).
  assert (CFE : e_config e' = e_config e) by congruence. rewrite W in FL, RES. fold find_levels in FL.
  assert (FL' : find_levels (e_config e') (all_samples (e_waveforms e')) d = Ok l) by (rewrite CFE, W', FLE; exact FL).
  assert (EDG : clock new_cdr e' l = Ok (pick p edges) /\ length edges = dim w 0).
  { unfold clock in *  . destruct ce as [[|le]|]; [congruence| |].
    - destruct ce' as [[|le']|]; [destruct RE| |destruct RE]. cbn in RE. subst le'. destruct (CE le eq_refl) as (Q & L). destruct (CE' _ eq_refl) as (Q' & _). rewrite Q in CL. rewrite Q'. injection CL as <-. rewrite pick_map, map_length. split; [reflexivity|exact L].
    - destruct ce' as [?|]; [destruct RE|]. rewrite (CEN eq_refl) in CL. rewrite (CEN' eq_refl). rewrite CFE.
      assert (SRC : clock_source (e_waveforms e') (e_clocks e') = pick p (clock_source (e_waveforms e) (e_clocks e)) /\ length (clock_source (e_waveforms e) (e_clocks e)) = dim w 0 /\ (e_clocks e = None <-> e_clocks e' = None)).
      { unfold clock_source. destruct ck as [c|]; destruct ck' as [c'|]; try (destruct RC; fail).
        - cbn in RC. pose proof RC as (CT & CS & _). destruct (CK c eq_refl CT) as (Q & DC). destruct (CK' c' eq_refl ltac:(congruence)) as (Q' & DC'). rewrite Q, Q'. split; [apply waves_reordered; [rewrite DC; exact O|exact RC]|]. split; [rewrite EyeOrderProofs.waves_length; exact DC|split; discriminate].
        - rewrite (CKN eq_refl), (CKN' eq_refl), W, W'. split; [exact WW|]. split; [apply EyeOrderProofs.waves_length|tauto]. }
      destruct SRC as (SRC & LS & NN). assert (CO : clock_of new_cdr (e_clocks e') = clock_of new_cdr (e_clocks e)) by (unfold clock_of; destruct (e_clocks e); destruct (e_clocks e'); try reflexivity; exfalso; destruct NN as (N1 & N2); [discriminate (N2 eq_refl)|discriminate (N1 eq_refl)]).
      rewrite CO, SRC. split; [apply mapM_pick; exact CL|]. apply ReportProofs.mapM_Forall2 in CL. apply Forall2_len in CL. congruence. }
  destruct EDG as (CL' & LE).
  assert (TDE : e_t_delta e' = e_t_delta e). { rewrite TD, TD', !D. f_equal. rewrite !A by lia. apply SD. pose proof (order_bound _ _ O) as B. rewrite Forall_forall in B. apply B. apply nth_In. rewrite (order_length _ _ O). lia. }
  assert (SP' : symbol_period (pick p edges) = Ok (Some t)) by (rewrite (period_order p (dim w 0) O edges LE); exact SP).
  assert (PL' : plottable d e'). { intros ->. destruct (PL eq_refl) as [Q|Q]; [|congruence]. left. destruct ce as [[|le]|]; [congruence|destruct (CE le eq_refl); congruence|]. destruct ce' as [?|]; [destruct RE|]. apply CEN'. reflexivity. }
  rewrite MK, RS, MS in RES. destruct (results_order percentile cast fuel draw PV p (dim w 0) O w w' mk res (e_t_delta e) (e_config e) l edges t [[]] [] m h dirs im (e_masked f) eq_refl WW LE RES) as (im' & pr' & RES' & SIM).
  pose proof (steps_eq round6 fit aic new_cdr percentile cast fuel draw d e' l (pick p edges) t FL' CL' SP' PL') as ST. rewrite W', MK', RS', MS', TDE, CFE, RES' in ST. destruct ST as (e2 & ST & M2 & H2 & I2 & _ & D2' & C2 & _ & CA2 & _).
  exists (set_calculated e2). unfold calculate. rewrite calculate_steps, ST, M2. split; [reflexivity|]. unfold same_results, get_measures, get_raw_heatmap, get_clock_edges, get_images, bit_stream, get_bit_stream. cbn [set_calculated e_calculated e_measures e_heatmap e_clock_edges e_images e_edge_dir].
  rewrite CAL, GM, M2, GH, H2, GC, C2, GI, I2, GD, D2', ED, ED'. cbn [negb mapped option_map]. split; [reflexivity|]. split; [reflexivity|]. split; [reflexivity|]. split.
  - intros nrzm. destruct dirs as [ds|]; cbn [option_map mapped]; [rewrite pick_map; reflexivity|reflexivity].
  - exists im, im'. split; [reflexivity|]. split; [reflexivity|exact SIM].
Qed.
Theorem C70_order p w w' ck ck' ce ce' mk res cfg e e' d : (forall q, of_values (fun l => percentile l q)) ->
  pair_of p w w' ck ck' ce ce' mk res cfg e e' -> same_duration w ->
  find_levels (e_config e) (all_samples w') d = find_levels (e_config e) (all_samples w) d ->
  match calculate d e, calculate d e' with
  | (Ok m, f), (Ok m', f') => m' = m /\ same_results p f f'
  | (Err _, _), (Err _, _) => True
  | _, _ => False
  end.
Proof.
  intros PV PO SD FL. destruct (calculate d e) as [[m|x] f] eqn:CA.
  - destruct (goes p w w' ck ck' ce ce' mk res cfg e e' d m f PV PO SD FL CA) as (f' & -> & SR). split; [reflexivity|exact SR].
  - destruct (calculate d e') as [[m'|x'] f'] eqn:CA'; [|exact I]. exfalso. destruct PO as (O & RW & RC & RE & C & C'). pose proof RW as (T & S & A). assert (T' : length (shape w') = 3%nat) by congruence. assert (D : forall k, dim w' k = dim w k) by (intros k; unfold dim; rewrite S; reflexivity).
    set (q := back (dim w 0) p).
    destruct (fresh w ck ce mk res cfg e T C) as (W & _ & _ & CF & _ & _ & _ & DP & _ & _ & CK & _ & CE & _ & CEL). destruct (fresh w' ck' ce' mk res cfg e' T' C') as (W' & _ & _ & CF' & _ & _ & _ & _ & _ & _ & _ & _ & _ & _ & CEL').
    destruct (goes q w' w ck' ck ce' ce mk res cfg e' e d m' f' PV) as (f2 & Q & _).
    + split; [rewrite D; apply back_order; exact O|]. split; [apply reordered_back; assumption|]. split; [|split; [|split; assumption]].
      * destruct ck as [c|]; destruct ck' as [c'|]; try (destruct RC; fail); [|exact I]. cbn in RC |- * . pose proof RC as (CT & _). destruct (CK c eq_refl CT) as (_ & DC). unfold q. rewrite <- DC. apply reordered_back; [rewrite DC; exact O|exact RC].
      * destruct ce as [[|le]|]; [congruence| |]; destruct ce' as [[|le']|]; try (destruct RE; fail); try congruence; [|exact I]. cbn in RE |- * . subst le'. destruct (CE le eq_refl) as (_ & L). unfold q. rewrite <- L. symmetry. apply pick_back. rewrite L. exact O.
    + intros i I. rewrite D in I. rewrite !D. rewrite !A by lia. rewrite (SD (nth i p 0%nat)), (SD (nth 0 p 0%nat)); [reflexivity|..]; pose proof (order_bound _ _ O) as B; rewrite Forall_forall in B; apply B; apply nth_In; rewrite (order_length _ _ O); lia.
    + rewrite CF', <- CF. symmetry. exact FL.
    + exact CA'.
    + rewrite Q in CA. discriminate.
Qed.

(** The levels: given, or found from all samples by an order-free fit. *)
Lemma py_min_perm (l l' : list R) : Permutation l l' -> py_min l = py_min l'.
Proof.
  intros P. destruct (list_eq_dec Req_EM_T l []) as [->|N]; [apply Permutation_nil in P; subst; reflexivity|]. destruct (AutoProofs.min_max l N) as (A & B & MA & _ & IA & _ & BO). rewrite MA. symmetry. apply EyeLevelsProps.py_of_min; [exact (Permutation_in _ P IA)|]. intros v V. apply BO. exact (Permutation_in _ (Permutation_sym P) V).
Qed.
Lemma py_max_perm (l l' : list R) : Permutation l l' -> py_max l = py_max l'.
Proof.
  intros P. destruct (list_eq_dec Req_EM_T l []) as [->|N]; [apply Permutation_nil in P; subst; reflexivity|]. destruct (AutoProofs.min_max l N) as (A & B & _ & MB & _ & IB & BO). rewrite MB. symmetry. apply EyeLevelsProps.py_of_max; [exact (Permutation_in _ P IB)|]. intros v V. apply BO. exact (Permutation_in _ (Permutation_sym P) V).
Qed.
Lemma mix_perm n : (forall k, of_values (fit k)) -> (forall m, of_values (aic m)) -> of_values (fun y => fit_mix_samples round6 fit aic y n).
Proof.
  intros FV AV l l' P. unfold fit_mix_samples. rewrite <- (py_max_perm l l' P), <- (py_min_perm l l' P). destruct (list_eq_dec Req_EM_T l []) as [->|N]; [reflexivity|]. destruct (AutoProofs.min_max l N) as (A & B & MA & MB & _ & _ & BO). rewrite MA, MB. cbn [bind]. destruct (Reqb (B - A) 0) eqn:Z0.
  - apply Reqb_true in Z0. assert (N' : l' <> []) by (intros ->; apply Permutation_sym, Permutation_nil in P; congruence). destruct l as [|a l]; [congruence|]. destruct l' as [|a' l']; [congruence|]. unfold get. cbn [nth_error bind]. pose proof (BO a (or_introl eq_refl)). pose proof (BO a' (Permutation_in _ (Permutation_sym P) (or_introl eq_refl))). replace a' with a by lra. reflexivity.
  - assert (SE : rsum l' = rsum l) by (symmetry; unfold rsum; apply fold_left_perm; [intros a x y; ring|exact P]). rewrite SE, <- (Permutation_length P). set (av := rsum l / INR (length l)). pose proof (Permutation_map (fun v => (v - av) / (B - A)) P) as Q. set (yn := map _ l) in *  . set (yn' := map _ l') in *  .
    assert (U : unique_count (map round6 yn') = unique_count (map round6 yn)). { unfold unique_count. apply Permutation_length. apply NoDup_Permutation; [apply NoDup_nodup..|]. intros v. rewrite !nodup_In. split; apply Permutation_in; [apply Permutation_sym|]; apply Permutation_map; exact Q. }
    rewrite U. assert (FE : (fun i => fit (i + 1) yn') = (fun i => fit (i + 1)%nat yn)) by (apply functional_extensionality; intros i; symmetry; apply FV; exact Q). rewrite FE. assert (AE : (fun m => aic m yn') = (fun m => aic m yn)) by (apply functional_extensionality; intros m; symmetry; apply (AV m); exact Q). rewrite AE. reflexivity.
Qed.
Lemma runner_perm : (forall k, of_values (fit k)) -> (forall m, of_values (aic m)) -> of_values (fun y => runner_levels round6 fit aic y None).
Proof.
  intros FV AV l l' P. unfold runner_levels. cbn [bind]. rewrite <- (py_min_perm l l' P), <- (py_max_perm l l' P). destruct (py_min l) as [a|]; [|reflexivity]. cbn [bind]. destruct (py_max l) as [b|]; [|reflexivity]. cbn [bind]. set (mid := (a + b) / 2).
  pose proof (EyeRProofs.filter_perm (fun v => Rltb v mid) _ _ P) as P0. pose proof (EyeRProofs.filter_perm (fun v => Rltb mid v) _ _ P) as P1. rewrite (mix_perm 2 FV AV _ _ P0), (mix_perm 2 FV AV _ _ P1), (UncertainProofs.usamples_perm _ _ P0), (UncertainProofs.usamples_perm _ _ P1). reflexivity.
Qed.
(** When the levels do not depend on the order. *)
Definition levels_of_values (c : config) (d : bool) : Prop :=
  (c_y_0 c <> None /\ c_y_1 c <> None /\ d = false)
  \/ (c_levels_n_max c = None /\ (forall k, of_values (fit k)) /\ forall m, of_values (aic m)).
Theorem C70_levels p w w' c d : order (dim w 0) p -> reordered p w w' -> levels_of_values c d -> find_levels c (all_samples w') d = find_levels c (all_samples w) d.
Proof.
  intros O RW H. assert (P : Permutation (all_samples w') (all_samples w)). { unfold all_samples. apply concat_perm, Permutation_map. rewrite (waves_reordered p w w' O RW). apply pick_perm. rewrite EyeOrderProofs.waves_length. exact O. }
  unfold find_levels, EyeRunModel.find_levels. destruct H as [(Y0 & Y1 & ->)|(NM & FV & AV)]; [destruct (c_y_0 c); [|congruence]; destruct (c_y_1 c); [|congruence]; reflexivity|]. rewrite NM, (runner_perm FV AV _ _ P). reflexivity.
Qed.
Theorem C70_records p w w' ck ck' ce ce' mk res cfg e e' d : (forall q, of_values (fun l => percentile l q)) ->
  pair_of p w w' ck ck' ce ce' mk res cfg e e' -> same_duration w -> levels_of_values (e_config e) d ->
  match calculate d e, calculate d e' with
  | (Ok m, f), (Ok m', f') => m' = m /\ same_results p f f'
  | (Err _, _), (Err _, _) => True
  | _, _ => False
  end.
Proof.
  intros PV PO SD LV. apply (C70_order p w w' ck ck' ce ce' mk res cfg e e' d PV PO SD). destruct PO as (O & RW & _). apply (C70_levels p w w' _ d O RW LV).
Qed.
End Order.
Print Assumptions C70_order.
Print Assumptions C70_levels.
Print Assumptions C70_records.
(** numpy's percentile is a function of the values. *)
Theorem C70_percentile : forall q, of_values (fun l => median_unbiased l q).
Proof. intros q l l' P. unfold median_unbiased. rewrite (sorted_perm l l' P). reflexivity. Qed.
Print Assumptions C70_percentile.

(** ** A concrete case: a record of the bits 1 0 1 0 and one of 0 1 0 1. *)
Definition level_at (j : nat) : R := match (j mod 8)%nat with 0%nat | 1%nat | 7%nat => 1 | 2%nat | 6%nat => 1 / 2 | _ => 0 end.
Definition pair_wave (swap : bool) : ndarray :=
  NdArray [2; 2; 28]%nat (fun i => match i with
    | [_; 0%nat; j] => INR j
    | [r; 1%nat; j] => if Bool.eqb swap (r =? 0)%nat then 1 - level_at j else level_at j
    | _ => 0 end).
Definition pair_signal (inv : bool) : signal := (8, fun n => xorb inv (Z.even n)).
Definition pair_y (inv : bool) : list R := map (fun j => if inv then 1 - level_at j else level_at j) (seq 0 28).
Lemma pair_reordered : order (dim (pair_wave false) 0) [1; 0]%nat /\ reordered [1; 0]%nat (pair_wave false) (pair_wave true).
Proof.
  split; [apply perm_swap|]. split; [reflexivity|]. split; [reflexivity|]. intros i k j I. cbn in I. destruct i as [|[|i]]; [| |lia]; cbn; destruct k as [|[|k]]; reflexivity.
Qed.
Lemma pair_record inv : record_of (Bands 0 0 1 1) 4 (3 / 2) 0 1 (bits_t, pair_y inv, bits_clock) (pair_signal inv).
Proof.
  split; cbn [fst snd].
  - intros first F0. assert (first = 0) as -> by (cbn in F0; congruence). intros j n J NEAR. unfold middle, pair_signal in NEAR. cbn [fst] in NEAR. apply Rabs_le_between in NEAR.
    rewrite INR_IZR_INZ in NEAR. assert (NZ : (- 2 < Z.of_nat j - 8 - 4 * n < 2)%Z).
    { split; apply lt_IZR; rewrite ?opp_IZR, ?minus_IZR, ?mult_IZR; lra. }
    change (length (pair_y inv)) with 28%nat in J. unfold pair_signal. cbn [snd].
    assert (VY : nth j (pair_y inv) 0 = if inv then 1 - level_at j else level_at j).
    { apply nth_error_nth. unfold pair_y. rewrite nth_error_map, (nth_error_nth' _ 0%nat) by (rewrite seq_length; exact J). rewrite seq_nth by exact J. reflexivity. }
    assert (MJ : (Z.of_nat (j mod 8) = Z.of_nat j mod 8)%Z) by (rewrite Nat2Z.inj_mod; reflexivity).
    assert (EN : (n = 2 * (n / 2) + n mod 2)%Z) by (apply Z.div_mod; lia). pose proof (Z.mod_pos_bound n 2 ltac:(lia)) as MB. rewrite Zmod_even in EN, MB.
    assert (DJ : (Z.of_nat j = 8 * (Z.of_nat j / 8) + Z.of_nat j mod 8)%Z) by (apply Z.div_mod; lia). pose proof (Z.mod_pos_bound (Z.of_nat j) 8 ltac:(lia)) as MJB.
    unfold shows. cbn [low_from low_to high_from high_to]. rewrite VY. unfold level_at. set (q := (j mod 8)%nat) in *  .
    destruct (Z.even n).
    + assert (Q : (q = 7 \/ q = 0 \/ q = 1)%nat) by lia. destruct inv; destruct Q as [-> | [-> | ->]]; cbn; lra.
    + assert (Q : (q = 3 \/ q = 4 \/ q = 5)%nat) by lia. destruct inv; destruct Q as [-> | [-> | ->]]; cbn; lra.
  - intros i b NB. unfold bits_clock in NB. unfold middle, pair_signal. cbn [fst]. apply Rabs_le. destruct i as [|[|[|[|i]]]]; cbn in NB; [injection NB as <-; cbn [Z.of_nat Pos.of_succ_nat Pos.succ]; lra..|destruct i; discriminate].
Qed.
Lemma pair_period : symbol_period [bits_clock; bits_clock] = Ok (Some 4).
Proof.
  unfold symbol_period. assert (E : concat (map CdrModel.diff [bits_clock; bits_clock]) = [4; 4; 4; 4; 4; 4]) by (unfold bits_clock; cbn; repeat (f_equal; [lra|]); f_equal; lra). rewrite E.
  assert (M : CdrModel.mean [4; 4; 4; 4; 4; 4] = 4) by (unfold CdrModel.mean; cbn; lra). rewrite M. cbn [filter]. assert (B : Rltb 4 (10 * 4) = true) by (apply Rltb_true; lra). rewrite B.
  destruct (UncertainProofs.usamples_spec [4; 4; 4; 4; 4; 4]) as (u & U & V & _); [discriminate|]. rewrite U. do 2 f_equal. cbn [length] in V. rewrite INR_IZR_INZ in V. cbn in V. lra.
Qed.
Definition pair_clock : edges_arg := ListOf [(true, bits_clock); (true, bits_clock)].
Example C70_met round6 fit aic new_cdr cast fuel draw : exists e e' m f f',
  pair_of [1; 0]%nat (pair_wave false) (pair_wave true) None None (Some pair_clock) (Some pair_clock) None 10 (Some (Some bits_config')) e e'
  /\ same_duration (pair_wave false) /\ levels_of_values fit aic (e_config e) false
  /\ calculate round6 fit aic new_cdr median_unbiased cast fuel draw false e = (Ok m, f)
  /\ calculate round6 fit aic new_cdr median_unbiased cast fuel draw false e' = (Ok m, f')
  /\ bit_stream f false = Ok [[1; 0; 1; 0]; [0; 1; 0; 1]]%Z /\ bit_stream f' false = Ok [[0; 1; 0; 1]; [1; 0; 1; 0]]%Z.
Proof.
  destruct (construct (pair_wave false) None (Some pair_clock) None 10 (Some (Some bits_config'))) as [e0|] eqn:C; [|discriminate].
  destruct (construct (pair_wave true) None (Some pair_clock) None 10 (Some (Some bits_config'))) as [e0'|] eqn:C'; [|discriminate].
  assert (PO : pair_of [1; 0]%nat (pair_wave false) (pair_wave true) None None (Some pair_clock) (Some pair_clock) None 10 (Some (Some bits_config')) e0 e0').
  { destruct pair_reordered as (A & B). split; [exact A|]. split; [exact B|]. split; [exact I|]. split; [reflexivity|]. split; assumption. }
  assert (SD : same_duration (pair_wave false)) by (intros i _; cbn; reflexivity).
  assert (TD : e_t_delta e0 = 1). { injection C as <-. change ((INR 27 - INR 0) / INR 27 = 1). rewrite (INR_IZR_INZ 27), (INR_IZR_INZ 0). cbn [Z.of_nat Pos.of_succ_nat Pos.succ]. lra. }
  assert (WV : waves (e_waveforms e0) = [(bits_t, pair_y false); (bits_t, pair_y true)]) by (injection C as <-; reflexivity).
  assert (CF : e_config e0 = bits_config') by (injection C as <-; reflexivity). assert (CE : e_clock_edges e0 = Some [bits_clock; bits_clock]) by (injection C as <-; reflexivity).
  assert (MK : e_mask e0 = None) by (injection C as <-; reflexivity). assert (MC : e_converted e0 = None) by (injection C as <-; reflexivity). assert (RS : e_resolution e0 = 10%Z) by (injection C as <-; reflexivity). clear C C'.
  assert (LV : levels_of_values fit aic (e_config e0) false) by (left; rewrite CF; repeat split; discriminate).
  assert (PP : forall p, is_period [bits_clock; bits_clock] p -> 0 < p). { intros p (l & IL & k & a & b & A & B & ->). assert (l = bits_clock) as -> by (destruct IL as [<-|[<-|[]]]; reflexivity). unfold bits_clock in A, B. destruct k as [|[|[|k]]]; cbn in A, B; [injection A as <-; injection B as <-; lra..|destruct k as [|k]; [discriminate|destruct k; discriminate]]. }
  assert (FL : exists l, find_levels round6 fit aic (e_config e0) (all_samples (e_waveforms e0)) false = Ok l /\ l_half l = 1 / 2) by (rewrite CF; eexists; split; [reflexivity|]; cbn; lra). destruct FL as (l & FL & LH).
  set (sent := [pair_signal false; pair_signal true]).
  assert (RO : Forall2 (record_of (Bands 0 0 1 1) 4 (3 / 2) 0 (e_t_delta e0)) (combine (waves (e_waveforms e0)) [bits_clock; bits_clock]) sent).
  { rewrite WV, TD. cbn [combine]. constructor; [apply pair_record|constructor; [apply pair_record|constructor]]. }
  assert (END : end_time 1 0 28 = 27) by (unfold end_time; rewrite INR_IZR_INZ; cbn [Z.of_nat Pos.of_succ_nat Pos.succ]; lra).
  assert (HS : forall (P : decision -> Prop) i b, nth_error bits_clock i = Some b -> 8 <= b <= 20 -> P (pattern (pair_signal false) (Z.of_nat i)) -> has_symbol 4 (e_t_delta e0) (combine (waves (e_waveforms e0)) [bits_clock; bits_clock]) sent P).
  { intros P i b NB B HP. rewrite WV, TD. exists (bits_t, pair_y false, bits_clock), (pair_signal false), 0, i, b. split; [left; reflexivity|]. split; [reflexivity|]. split; [exact NB|]. split; [|exact HP].
    cbn [fst snd]. change (length bits_t) with 28%nat. rewrite END. unfold well_inside. lra. }
  destruct (C67_calculated round6 fit aic new_cdr median_unbiased cast fuel draw e0 l [bits_clock; bits_clock] 4 (Bands 0 0 1 1) 4 (3 / 2) 0 sent FL) as (m & e1 & CO & WD);
    [cbn [low_to high_from]; rewrite LH; lra|exact CE|exact pair_period|exact PP|rewrite TD; lra|rewrite WV; cbn; lia|rewrite WV; intros w [<-|[<-|[]]]; discriminate|left; split; [exact MK|exact MC]|rewrite RS; lia|rewrite CF; reflexivity|
     rewrite CF; reflexivity|rewrite CF; cbn; lra|rewrite CF; cbn; lra|rewrite CF, TD; cbn; lra|rewrite CF, TD; cbn; lra|rewrite CF; cbn; lra|rewrite TD; lra|rewrite CF, TD; cbn [c_level_width bits_config']; replace (4 - 4) with 0 by lra; rewrite Rabs_R0; lra|exact RO| | | |].
  1: refine (HS _ 0%nat 8 eq_refl ltac:(lra) _); reflexivity.
  1: refine (HS _ 1%nat 12 eq_refl ltac:(lra) _); reflexivity.
  1: refine (HS _ 1%nat 12 eq_refl ltac:(lra) _); discriminate.
  assert (BS : bit_stream e1 false = Ok [[1; 0; 1; 0]; [0; 1; 0; 1]]%Z).
  { destruct (C67_data round6 fit aic new_cdr median_unbiased cast fuel draw false e0 m e1 [bits_clock; bits_clock] 4 l (Bands 0 0 1 1) 4 (3 / 2) 0 sent CO) as (parts & WP & _ & _ & _ & BS & _);
      [rewrite CF; reflexivity|rewrite WD, CF; cbn; lra|exact FL|cbn [low_to high_from]; rewrite LH; lra|rewrite TD; lra|rewrite WD, CF, TD; cbn [c_level_width bits_config']; replace (4 - 4) with 0 by lra; rewrite Rabs_R0; lra|exact RO|].
    rewrite WV, TD in WP. cbn [combine] in WP.
    assert (PT : parts = [(0, 4); (0, 4)]%nat).
    { assert (ONE : forall y part, whole_part 4 1 (bits_t, y, bits_clock) part -> part = (0, 4)%nat).
      { intros y part (LP & first & F0 & W). cbn [fst snd] in LP, F0, W. assert (first = 0) as -> by (cbn in F0; congruence). change (length bits_t) with 28%nat in W. cbv zeta in W. rewrite END in W. change (length bits_clock) with 4%nat in LP.
        assert (W0 : (fst part <= 0)%nat) by (apply (W 0%nat 8 eq_refl); unfold well_inside; lra). assert (W3 : (3 < fst part + snd part)%nat) by (apply (W 3%nat 20 eq_refl); unfold well_inside; lra).
        destruct part as [from num]. cbn [fst snd] in *  . f_equal; lia. }
      inversion WP as [|? p1 ? ps H1 WP1]; subst. inversion WP1 as [|? p2 ? ps2 H2 WP2]; subst. inversion WP2; subst. rewrite (ONE _ _ H1), (ONE _ _ H2). reflexivity. }
    rewrite PT in BS. rewrite BS; [reflexivity|]. repeat constructor; exists 1%Z; (split; [right; left; reflexivity|discriminate]). }
  pose proof CO as (CA & _). pose proof (C70_records round6 fit aic new_cdr median_unbiased cast fuel draw [1; 0]%nat _ _ _ _ _ _ _ _ _ e0 e0' false C70_percentile PO SD LV) as G. rewrite CA in G.
  destruct (calculate round6 fit aic new_cdr median_unbiased cast fuel draw false e0') as [[m'|] f'] eqn:CA'; [|destruct G]. destruct G as (-> & SR).
  exists e0, e0', m, e1, f'. split; [exact PO|]. split; [exact SD|]. split; [exact LV|]. split; [exact CA|]. split; [exact CA'|]. split; [exact BS|]. destruct SR as (_ & _ & _ & SB & _). rewrite SB, BS. reflexivity.
Qed.
