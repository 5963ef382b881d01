(** C74: a concrete case.  The bits 1 0 1 0 ... of eight samples each, passing
    1/2 at the boundaries, clock edges at the middles, and a mask. *)
From Coq Require Import ZArith QArith Qreals Reals Bool List Lia Lra.
Import ListNotations.
From Verif Require Import Base Num RBool LinesSpec StatsModel UncertainProofs MaskModel EyeModel EyeSpec Pam2Model Pam2Spec Pam2Props EyeImageModel EyeRunModel EyeRunSpec EyeRunProofs EyeReportSpec EyeReportProps EyeTimesProps EyeImageSpec EyeImageProps EyeDataSpec EyeDataProps EyeClockProps EyeLevelsProps EyeOpenSpec EyeOpenProps EyeTrackExample EyeEdgesSpec EyeEdgesProps EyeEdgesExample EyeWideSpec EyeWideProofs EyeWideProps LinesRational EyeTrackProps.
From Verif Require CdrModel.
Local Open Scope R_scope.

Definition wide_value (j : nat) : R := match (j mod 16)%nat with 0%nat | 1%nat | 2%nat | 3%nat | 13%nat | 14%nat | 15%nat => 1 | 4%nat | 12%nat => 1 / 2 | _ => 0 end.
Definition wide_wave : ndarray := NdArray [2; 56]%nat (fun i => match i with [0%nat; j] => INR j | [1%nat; j] => wide_value j | _ => 0 end).
Definition wide_config : config :=
  Config None (1 / 10) (Some 10000) RISING None 1 false (3 / 10) (1 / 8) (3 / 10) (4 / 10) (6 / 10) 0 true (Some 0) (Some 1) None.
Definition wide_clock : list R := [16; 24; 32; 40].
Definition wide_t : list R := map INR (seq 0 56).
Definition wide_y : list R := map wide_value (seq 0 56).
Definition wide_signal : signal := (16, Z.even).
Definition wide_mask : mask R := MHexagon (new_hexagon (Plain (3 / 8)) (Plain (7 / 16)) (Plain (1 / 4)) (Plain (1 / 4)) (Plain (1 / 4)) true).
Definition wide_converted : mask R := MHexagon (Hexagon (Plain (3 / 8)) (Plain (7 / 16)) (Plain (1 / 4)) (Plain (1 / 4)) (Plain (1 / 4)) true true).
Lemma wide_adjustable : adjustable wide_converted.
Proof.
  intros f _. unfold wide_converted. cbn [mask_adjusted]. unfold hex_adjust. cbn [hx1 hx2 hy1 hyl hyu val hzero hconv nlt nofZ NumR]. destruct (Rltb 0 f); [|cbn [bind]; unfold hex_get_paths, get_paths; cbn [hconv]; eexists; reflexivity].
  unfold proportional, py_div. cbn [neq nsub nhalf nofZ NumR]. destruct (Reqb (/ 2 - 3 / 8) 0) eqn:E; [apply Reqb_true in E; lra|]. cbn [bind]. unfold hex_get_paths, get_paths. cbn [hconv]. eexists. reflexivity.
Qed.
(** Made larger by 25 percent the mask still fits. *)
Lemma wide_fits : exists outlines, mask_adjusted wide_converted (1 / 4) = Ok outlines /\ Forall (fits_in (1 / 4) 0 1 0 1 0 1) outlines.
Proof.
  unfold wide_converted. cbn [mask_adjusted]. unfold hex_adjust. cbn [hx1 hx2 hy1 hyl hyu val hzero hconv nlt nofZ NumR]. destruct (Rltb 0 (1 / 4)) eqn:E; [|apply Rltb_false in E; lra].
  unfold proportional, py_div. cbn [neq nsub nhalf nofZ NumR]. destruct (Reqb (/ 2 - 3 / 8) 0) eqn:E'; [apply Reqb_true in E'; lra|]. cbn [bind]. unfold hex_get_paths, get_paths. cbn [hconv]. eexists. split; [reflexivity|].
  unfold hex_paths, limit_paths, one, neg. cbn [hx1 hx2 hy1 hyl hyu val nhalf nofZ nsub nadd nmul ndiv NumR]. constructor; [left|constructor; [right; left|constructor; [right; right|constructor]]];
    repeat (constructor; [cbn [fst snd]; first [lra|split; [apply Rabs_le; lra|lra]]|]); constructor.
Qed.
Lemma wide_period : symbol_period [wide_clock] = Ok (Some 8).
Proof.
  unfold symbol_period. assert (E : concat (map CdrModel.diff [wide_clock]) = [8; 8; 8]) by (unfold wide_clock; cbn; f_equal; [lra|f_equal; [lra|f_equal; lra]]). rewrite E.
  assert (M : CdrModel.mean [8; 8; 8] = 8) by (unfold CdrModel.mean; cbn; lra). rewrite M. cbn [filter]. assert (B : Rltb 8 (10 * 8) = true) by (apply Rltb_true; lra). rewrite B.
  destruct (usamples_spec [8; 8; 8]) as (u & U & V & _); [discriminate|]. rewrite U. do 2 f_equal. cbn [length] in V. rewrite INR_IZR_INZ in V. cbn in V. lra.
Qed.
Lemma wide_nth j : (j < 56)%nat -> nth j wide_y 0 = wide_value j.
Proof. intros J. apply nth_error_nth. unfold wide_y. rewrite nth_error_map, (nth_error_nth' _ 0%nat) by (rewrite seq_length; exact J). rewrite seq_nth by exact J. reflexivity. Qed.
Lemma wide_near j n : (j < 56)%nat -> (-4 < Z.of_nat j - 16 - 8 * n < 4)%Z -> nth j wide_y 0 = if Z.even n then 1 else 0.
Proof.
  intros J NZ. rewrite (wide_nth j J). unfold wide_value.
  assert (MJ : (Z.of_nat (j mod 16) = Z.of_nat j mod 16)%Z) by (rewrite Nat2Z.inj_mod; reflexivity).
  assert (EN : (n = 2 * (n / 2) + n mod 2)%Z) by (apply Z.div_mod; lia). pose proof (Z.mod_pos_bound n 2 ltac:(lia)) as MB. rewrite Zmod_even in EN, MB.
  assert (DJ : (Z.of_nat j = 16 * (Z.of_nat j / 16) + Z.of_nat j mod 16)%Z) by (apply Z.div_mod; lia). pose proof (Z.mod_pos_bound (Z.of_nat j) 16 ltac:(lia)) as MJB.
  set (q := (j mod 16)%nat) in *  . destruct (Z.even n).
  - assert (Q : (q = 13 \/ q = 14 \/ q = 15 \/ q = 0 \/ q = 1 \/ q = 2 \/ q = 3)%nat) by lia. destruct Q as [->|[->|[->|[->|[->|[->| ->]]]]]]; reflexivity.
  - assert (Q : (q = 5 \/ q = 6 \/ q = 7 \/ q = 8 \/ q = 9 \/ q = 10 \/ q = 11)%nat) by lia. destruct Q as [->|[->|[->|[->|[->|[->| ->]]]]]]; reflexivity.
Qed.
Lemma wide_range v : In v wide_y -> 0 <= v <= 1.
Proof. intros I. unfold wide_y in I. apply in_map_iff in I. destruct I as (j & <- & _). unfold wide_value. generalize (j mod 16)%nat. intros q. do 16 (destruct q as [|q]; [lra|]). lra. Qed.
Lemma wide_boundary n : (0 <= 8 * n + 12 < 56)%Z -> nth (Z.to_nat (8 * n + 12)) wide_y 0 = 1 / 2.
Proof. intros N. assert (C : (n = -1 \/ n = 0 \/ n = 1 \/ n = 2 \/ n = 3 \/ n = 4 \/ n = 5)%Z) by lia. destruct C as [->|[->|[->|[->|[->|[->| ->]]]]]]; reflexivity. Qed.

Example C74_met round6 fit aic new_cdr percentile cast fuel draw : fair (line_aa draw) -> exists e0 m e1 my uc mt u margin times rates,
  construct wide_wave None (Some (ListOf [(true, wide_clock)])) (Some wide_mask) 10 (Some (Some wide_config)) = Ok e0
  /\ Forall2 (record_of (Bands 0 0 1 1) 8 (7 / 2) 0 (e_t_delta e0)) (combine (waves (e_waveforms e0)) [wide_clock]) [wide_signal]
  /\ Forall2 (smooth_of (Bands 0 0 1 1) 8 (7 / 2) (e_t_delta e0)) (combine (waves (e_waveforms e0)) [wide_clock]) [wide_signal]
  /\ completed round6 fit aic new_cdr percentile cast fuel draw false e0 m e1 [wide_clock] 8
  /\ in_y m = Some my /\ m_y_cross my = Some uc /\ value uc = 1 / 2
  /\ in_t m = Some mt /\ m_t_cross mt = Some u /\ Rabs (value u) < 1
  /\ (forall v, m_t_rise mt = Some v -> Rabs (value v) < 2) /\ (forall v, m_t_1 mt = Some v -> Rabs (value v - 8) < 2)
  /\ mask_margin m = Some margin /\ 1 / 4 <= margin <= 1 /\ n_sym_bad m = Some 0%nat
  /\ bathtub_curve m = Some [(times, rates)] /\ (forall x, In x times -> 1 / 4 < Rabs (x - 1 / 2) <= 1 / 2).
Proof.
  intros FA.
  destruct (construct wide_wave None (Some (ListOf [(true, wide_clock)])) (Some wide_mask) 10 (Some (Some wide_config))) as [e0|] eqn:C; [|discriminate].
  assert (TD : e_t_delta e0 = 1). { injection C as <-. change ((INR 55 - INR 0) / INR 55 = 1). rewrite (INR_IZR_INZ 55), (INR_IZR_INZ 0). cbn [Z.of_nat Pos.of_succ_nat Pos.succ]. lra. }
  assert (WV : waves (e_waveforms e0) = [(wide_t, wide_y)]) by (injection C as <-; reflexivity).
  assert (CF : e_config e0 = wide_config) by (injection C as <-; reflexivity). assert (CE : e_clock_edges e0 = Some [wide_clock]) by (injection C as <-; reflexivity).
  assert (MK : e_mask e0 = Some wide_mask) by (injection C as <-; reflexivity). assert (RS : e_resolution e0 = 10%Z) by (injection C as <-; reflexivity). clear C.
  assert (PP : forall p, is_period [wide_clock] p -> 0 < p). { intros p (l & [<-|[]] & k & a & b & A & B & ->). unfold wide_clock in A, B. destruct k as [|[|[|k]]]; cbn in A, B; [injection A as <-; injection B as <-; lra..|destruct k as [|k]; [discriminate|destruct k; discriminate]]. }
  assert (FL : exists l, find_levels round6 fit aic (e_config e0) (all_samples (e_waveforms e0)) false = Ok l /\ l_half l = 1 / 2) by (rewrite CF; eexists; split; [reflexivity|]; cbn; lra). destruct FL as (l & FL & LH).
  assert (F0 : forall first, nth_error wide_t 0 = Some first -> first = 0) by (intros first F; cbn in F; congruence).
  assert (RO : Forall2 (record_of (Bands 0 0 1 1) 8 (7 / 2) 0 (e_t_delta e0)) (combine (waves (e_waveforms e0)) [wide_clock]) [wide_signal]).
  { rewrite WV, TD. cbn [combine]. constructor; [|constructor]. split; cbn [fst snd].
    - intros first F. rewrite (F0 first F). intros j n J NEAR. unfold middle, wide_signal in NEAR. cbn [fst] in NEAR. apply Rabs_le_between in NEAR. rewrite INR_IZR_INZ in NEAR.
      change (length wide_y) with 56%nat in J. rewrite (wide_near j n J) by (split; apply lt_IZR; rewrite ?minus_IZR, ?mult_IZR; lra). unfold wide_signal, shows. cbn [snd low_from low_to high_from high_to]. destruct (Z.even n); lra.
    - intros i b NB. unfold wide_clock in NB. unfold middle, wide_signal. cbn [fst]. apply Rabs_le. destruct i as [|[|[|[|i]]]]; cbn in NB; [injection NB as <-; cbn [Z.of_nat Pos.of_succ_nat Pos.succ]; lra..|destruct i; discriminate]. }
  assert (SM : Forall2 (smooth_of (Bands 0 0 1 1) 8 (7 / 2) (e_t_delta e0)) (combine (waves (e_waveforms e0)) [wide_clock]) [wide_signal]).
  { rewrite WV, TD. cbn [combine]. constructor; [|constructor]. intros first F. cbn [fst snd] in *  . rewrite (F0 first F). split.
    - intros j n v _ _ S. exfalso. unfold wide_signal in S. cbn [snd] in S. rewrite Z.even_sub in S. change (Z.even 1) with false in S. destruct (Z.even n); discriminate.
    - intros j j' n v v' _ _ L B B' _. exfalso. unfold middle, wide_signal in B, B'. cbn [fst] in B, B'. rewrite INR_IZR_INZ, minus_IZR in B, B'. assert (Z.of_nat j' < Z.of_nat j + 1)%Z; [|lia]. apply lt_IZR. rewrite plus_IZR. lra. }
  assert (END : end_time 1 0 56 = 55) by (unfold end_time; rewrite INR_IZR_INZ; cbn [Z.of_nat Pos.of_succ_nat Pos.succ]; lra).
  assert (HS : forall (P : decision -> Prop) i b, nth_error wide_clock i = Some b -> 16 <= b <= 40 -> P (pattern wide_signal (Z.of_nat i)) -> has_symbol 8 (e_t_delta e0) (combine (waves (e_waveforms e0)) [wide_clock]) [wide_signal] P).
  { intros P i b NB B HP. rewrite WV, TD. exists (wide_t, wide_y, wide_clock), wide_signal, 0, i, b. split; [left; reflexivity|]. split; [reflexivity|]. split; [exact NB|]. split; [|exact HP].
    cbn [fst snd]. change (length wide_t) with 56%nat. rewrite END. unfold well_inside. lra. }
  destruct (C74_completes round6 fit aic new_cdr percentile cast fuel draw e0 l [wide_clock] 8 (Bands 0 0 1 1) 8 (7 / 2) 0 [wide_signal] wide_mask FL) as (m & e1 & CO & WD);
    [cbn [low_to high_from]; rewrite LH; lra|exact CE|exact wide_period|exact PP|rewrite TD; lra|rewrite WV; cbn; lia|rewrite WV; intros w [<-|[]]; discriminate|exact MK|intros lo hi _ _; eexists; split; [reflexivity|exact wide_adjustable]|exact FA|rewrite RS; lia|rewrite CF; reflexivity|
     rewrite CF; reflexivity|rewrite CF; cbn; lra|rewrite CF; cbn; lra|rewrite CF, TD; cbn; lra|rewrite CF, TD; cbn; lra|rewrite CF; cbn; lra|rewrite TD; lra|rewrite CF, TD; cbn [c_level_width wide_config]; replace (8 - 8) with 0 by lra; rewrite Rabs_R0; lra|exact RO| | | |].
  1: refine (HS _ 0%nat 16 eq_refl ltac:(lra) _); reflexivity.
  1: refine (HS _ 1%nat 24 eq_refl ltac:(lra) _); reflexivity.
  1: refine (HS _ 1%nat 24 eq_refl ltac:(lra) _); discriminate.
  assert (SK : c_skip_measures (e_config e0) = false) by (rewrite CF; reflexivity). assert (W1 : width e0 8 < 1) by (rewrite WD, CF; cbn; lra).
  destruct (C58_times round6 fit aic new_cdr percentile cast fuel draw false e0 m e1 [wide_clock] 8 CO SK W1) as (l' & syms & pds & low & amp & my & uc & w & parts & hz & cr & FL' & RSY & EP & _ & DL & IY & UC & _ & _ & _ & TM & IT & _).
  assert (l' = l) as -> by congruence.
  assert (LA : low = 0 /\ amp = 1). { pose proof DL as DL'. unfold drawn_levels in DL'. rewrite SK, CF in DL'. destruct DL' as (my' & u0 & ua & _ & _ & _ & -> & ->). cbn [c_y_0 c_y_1 wide_config]. lra. } destruct LA as (-> & ->).
  (* every symbol has the sample 1/2 at its start, and no other one near it *)
  assert (SYM : forall syms, Forall2 (record_symbols 8 (e_t_delta e0)) (combine (waves (e_waveforms e0)) [wide_clock]) syms -> forall ps, In ps (map snd (concat syms)) -> In (0, 1 / 2) ps /\ forall v, In v (values_in 0 (1 / 8) ps) -> v = 1 / 2).
  { clear syms RSY EP. intros syms RSY ps I. rewrite WV, TD in RSY. cbn [combine] in RSY. inversion RSY as [|? sy ? sys (first & FI & (keep & SY & KP) & SE) F' X1 X2]; subst. inversion F'; subst. cbn [fst snd concat] in *  . rewrite app_nil_r in I. rewrite (F0 first FI) in SE.
    apply in_map_iff in I. destruct I as (q & <- & I). rewrite Forall_forall in SE. destruct (SE q I) as (b' & lo & num & _ & KB & LY & S0 & S1 & ->). assert (Z0 : exists k, 0 = IZR k * 1) by (exists 0%Z; lra). rewrite (KB Z0) in *  . clear KB Z0.
    assert (IB : In (fst q) wide_clock). { assert (IF : In (fst q) (map fst sy)) by (apply in_map; exact I). rewrite SY in IF. apply filter_In in IF. apply IF. }
    assert (BZ : exists n, fst q = IZR (8 * n + 16) /\ (0 <= n <= 3)%Z). { unfold wide_clock in IB. destruct IB as [<-|[<-|[<-|[<-|[]]]]]; [exists 0%Z|exists 1%Z|exists 2%Z|exists 3%Z]; (split; [reflexivity|lia]). } destruct BZ as (n & B & N). rewrite B in *  .
    change (length wide_y) with 56%nat in LY. rewrite !INR_IZR_INZ in S0, S1.
    assert (G : (Z.of_nat lo <= 8 * n + 12 < Z.of_nat (lo + num))%Z) by (split; [apply le_IZR|apply lt_IZR]; rewrite ?plus_IZR, ?mult_IZR in *  ; lra).
    split.
    - unfold view. apply in_map_iff. exists (Z.to_nat (8 * n + 12)). split; [|apply in_seq; lia]. rewrite wide_boundary by lia. f_equal. rewrite INR_IZR_INZ, Z2Nat.id by lia. rewrite !plus_IZR, mult_IZR. lra.
    - intros v V. unfold values_in in V. apply in_map_iff in V. destruct V as (p & <- & V). apply filter_In in V. destruct V as (V & R'). unfold view in V. apply in_map_iff in V. destruct V as (j & <- & _). cbn [fst snd] in *  .
      apply andb_true_iff in R'. destruct R' as (R1 & R2). apply Rleb_true in R1, R2. rewrite INR_IZR_INZ in R1, R2. rewrite plus_IZR, mult_IZR in R1, R2.
      assert (J : (8 * n + 11 < Z.of_nat j < 8 * n + 13)%Z) by (split; apply lt_IZR; rewrite plus_IZR, mult_IZR; lra). replace j with (Z.to_nat (8 * n + 12)) by lia. apply wide_boundary. lia. }
  (* the crossing level is 1/2 *)
  assert (V2 : value uc = 1 / 2).
  { destruct (C58_decisions round6 fit aic new_cdr percentile cast fuel draw false e0 m e1 [wide_clock] 8 CO SK W1) as (l2 & syms2 & pds2 & _ & RSY2 & EP2 & _ & _ & _ & _ & my2 & IY2 & _ & _ & YC & _).
    assert (my2 = my) as -> by congruence. rewrite UC in YC. symmetry in YC. destruct (usamples_mean _ _ YC) as (NE & ->). rewrite CF in NE |- * . cbn [c_cross_width wide_config] in NE |- * .
    assert (B : 1 / 2 <= Pam2Spec.mean (values_at 0 (1 / 8) (fun d => xorb (prev d) (cur d)) (concat pds2)) <= 1 / 2); [|lra]. apply mean_band; [exact NE|]. apply Forall_forall. intros v V. unfold values_at in V. apply in_flat_map in V. destruct V as (q & Q & V). apply filter_In in Q. destruct Q as (Q & _).
    assert (v = 1 / 2); [|lra]. apply (proj2 (SYM syms2 RSY2 (fst q) ltac:(rewrite <- (pds_syms _ _ EP2); apply in_map; exact Q)) v V). }
  assert (NEAR : 0 + e_t_delta e0 / 2 + Rabs (8 - 8) + 3 / 8 * 8 <= 7 / 2) by (rewrite TD; replace (8 - 8) with 0 by lra; rewrite Rabs_R0; lra).
  destruct (C74_crossings round6 fit aic new_cdr percentile cast fuel draw false e0 m e1 [wide_clock] 8 l (Bands 0 0 1 1) 8 (7 / 2) 0 [wide_signal] (3 / 8) 0 1 my uc CO SK W1 FL DL ltac:(lra) RO ltac:(lra) NEAR IY UC) as (mt & IT' & T1 & _);
    [unfold clear_of; rewrite V2, CF; cbn; lra|]. assert (mt = measure_t 8 hz) as -> by congruence. clear IT'.
  destruct (C74_bathtub round6 fit aic new_cdr percentile cast fuel draw false e0 m e1 [wide_clock] 8 l (Bands 0 0 1 1) 8 (7 / 2) 0 [wide_signal] (3 / 8) 0 1 CO SK W1 FL DL ltac:(lra) RO ltac:(lra) NEAR ltac:(cbn; lra)) as (times & rates & BC & BT).
  destruct wide_fits as (outlines & AD & FI).
  destruct (C74_mask round6 fit aic new_cdr percentile cast fuel draw false e0 m e1 [wide_clock] 8 l (Bands 0 0 1 1) 8 (7 / 2) 0 [wide_signal] (3 / 8) 0 1 0 1 wide_mask wide_converted 750 outlines CO SK FL DL ltac:(lra) RO NEAR) as (mg & MM & MG & NB);
    [rewrite WV; intros wv v [<-|[]] V; apply wide_range; exact V|exact MK|reflexivity|lia|cbn; replace (250 / 1000) with (1 / 4) by lra; exact AD|rewrite TD; replace (3 / 8 - 1 / 8) with (1 / 4) by lra; exact FI|]. cbn in MG. 
  destruct (C74_edges round6 fit aic new_cdr percentile cast fuel draw false e0 m e1 [wide_clock] 8 l (Bands 0 0 1 1) 8 (7 / 2) 0 [wide_signal] (3 / 8) 0 1 CO SK W1 FL ltac:(rewrite LH; cbn; lra) DL ltac:(lra) RO SM ltac:(lra) ltac:(rewrite TD; lra) NEAR ltac:(rewrite WD, CF; cbn; lra)) as (mt & IT' & EH & _ & _ & ER).
  assert (mt = measure_t 8 hz) as -> by congruence. clear IT'. rewrite CF in EH, ER. cbn [c_time_height c_edge_lower c_edge_upper wide_config] in EH, ER.
  assert (HL : h_left hz <> []).
  { destruct TM as (-> & _). rewrite V2. replace ((1 / 2 - 0) / 1) with (1 / 2) by lra. rewrite CF. cbn [c_time_height wide_config]. intros E.
    assert (Q : exists q, In q (concat pds)). { destruct (concat pds) as [|q qs] eqn:CP; [|exists q; left; reflexivity]. exfalso.
      assert (EN : map snd (concat syms) = []) by (rewrite <- (pds_syms _ _ EP), CP; reflexivity). apply map_eq_nil in EN. rewrite WV, TD in RSY. cbn [combine] in RSY. inversion RSY as [|? sy ? sys (first & FF & (keep & SY & KP) & SE) F' X1 X2]; subst. inversion F'; subst. cbn [concat fst snd] in *  . rewrite app_nil_r in EN. subst sy.
      rewrite (F0 first FF) in KP. change (length wide_t) with 56%nat in KP. rewrite END in KP. assert (K : keep 16 = true) by (apply KP; [left; reflexivity|unfold well_inside; lra]). unfold wide_clock in SY. cbn [map filter] in SY. rewrite K in SY. discriminate. }
    destruct Q as (q & Q). destruct (SYM syms RSY (fst q) ltac:(rewrite <- (pds_syms _ _ EP); apply in_map; exact Q)) as (I & _).
    assert (J : In 0 (flat_map (left_times (1 / 2) (3 / 10)) (map (fun s => scaled 0 1 (fst s)) (concat pds)))); [|rewrite E in J; destruct J].
    apply in_flat_map. exists (scaled 0 1 (fst q)). split; [apply in_map_iff; exists q; split; [reflexivity|exact Q]|]. unfold left_times. apply filter_In. split; [|apply andb_true_iff; split; apply Rleb_true; lra].
    unfold times_at. apply in_map_iff. exists (0, (1 / 2 - 0) / 1). split; [reflexivity|]. apply filter_In. split; [unfold scaled; apply in_map_iff; exists (0, 1 / 2); split; [reflexivity|exact I]|]. cbn [snd]. apply andb_true_iff. split; apply Rleb_true; lra. }
  assert (US : exists u, m_t_cross (measure_t 8 hz) = Some u). { destruct (usamples_spec (map (fun x => x * 8) (h_left hz))) as (u & U & _); [intros E; apply map_eq_nil in E; exact (HL E)|]. exists u. exact U. } destruct US as (u & U).
  exists e0, m, e1, my, uc, (measure_t 8 hz), u, mg, times, rates. split; [reflexivity|]. split; [exact RO|]. split; [exact SM|]. split; [exact CO|]. split; [exact IY|]. split; [exact UC|]. split; [exact V2|]. split; [exact IT|]. split; [exact U|].
  split; [eapply Rlt_le_trans; [exact (T1 u U)|lra]|].
  split; [intros v V; eapply Rlt_le_trans; [apply (proj1 (ER ltac:(unfold clear_of; cbn; lra) ltac:(unfold clear_of; cbn; lra)) v V)|lra]|].
  split; [intros v V; destruct (EH ltac:(unfold clear_of; cbn; lra)) as (_ & _ & _ & E1 & _); eapply Rlt_le_trans; [exact (E1 v V)|lra]|].
  split; [exact MM|]. split; [lra|]. split; [apply NB; cbn; lra|]. split; [exact BC|]. intros x I. specialize (BT x I). rewrite TD in BT. lra.
Qed.
Print Assumptions C74_met.
(** Nothing configured about levels and no clock given: the ten bits of
    C73_open_met, with a small mask that is as high as 1/4 in the units of the samples. *)
Definition ten_mask : mask R := MHexagon (new_hexagon (Plain (45 / 100)) (Plain (48 / 100)) (RealUnits (1 / 4)) (Plain (1 / 4)) (Plain (1 / 4)) true).
Definition ten_converted : mask R := MHexagon (Hexagon (Plain (45 / 100)) (Plain (48 / 100)) (Plain (1 / 4)) (Plain (1 / 4)) (Plain (1 / 4)) true true).
Lemma ten_convert t : mask_convert ten_mask 1 t = Ok ten_converted.
Proof.
  unfold ten_mask, ten_converted, mask_convert, hex_convert, new_hexagon, convert, py_div. cbn [hx1 hx2 hy1 hyl hyu hzero bind]. cbn [neq nofZ NumR]. destruct (Reqb 1 0) eqn:E; [apply Reqb_true in E; lra|]. cbn [bind ndiv NumR].
  replace (1 / 4 / 1) with (1 / 4) by lra. reflexivity.
Qed.
Lemma ten_adjustable : adjustable ten_converted.
Proof.
  intros f _. unfold ten_converted. cbn [mask_adjusted]. unfold hex_adjust. cbn [hx1 hx2 hy1 hyl hyu val hzero hconv nlt nofZ NumR]. destruct (Rltb 0 f); [|cbn [bind]; unfold hex_get_paths, get_paths; cbn [hconv]; eexists; reflexivity].
  unfold proportional, py_div. cbn [neq nsub nhalf nofZ NumR]. destruct (Reqb (/ 2 - 45 / 100) 0) eqn:E; [apply Reqb_true in E; lra|]. cbn [bind]. unfold hex_get_paths, get_paths. cbn [hconv]. eexists. reflexivity.
Qed.
Lemma ten_fits : exists outlines, mask_adjusted ten_converted (IZR (1000 - Z.of_nat 1000) / 1000) = Ok outlines /\ Forall (fits_in (7 / 100) 0 1 0 1 0 1) outlines.
Proof.
  replace (IZR (1000 - Z.of_nat 1000) / 1000) with 0 by (replace (1000 - Z.of_nat 1000)%Z with 0%Z by reflexivity; lra).
  unfold ten_converted. cbn [mask_adjusted]. unfold hex_adjust. cbn [hx1 hx2 hy1 hyl hyu val hzero hconv nlt nofZ NumR]. destruct (Rltb 0 0) eqn:E; [apply Rltb_true in E; lra|].
  cbn [bind]. unfold hex_get_paths, get_paths. cbn [hconv]. eexists. split; [reflexivity|].
  unfold hex_paths, limit_paths, towards_half, one, neg. cbn [hx1 hx2 hy1 hyl hyu val nhalf nofZ nsub nadd nmul ndiv NumR]. constructor; [left|constructor; [right; left|constructor; [right; right|constructor]]];
    repeat (constructor; [cbn [fst snd]; first [lra|split; [apply Rabs_le; lra|lra]]|]); constructor.
Qed.
Example C74_open_met round6 aic new_cdr percentile cast fuel draw : fair (line_aa draw) -> exists e0 m e1 edges t mt margin,
  construct ten_wave None None (Some ten_mask) 10 (Some (Some free_config)) = Ok e0
  /\ completed round6 average_fit aic new_cdr percentile cast fuel draw false e0 m e1 edges t /\ Rabs (t - 40) <= 3
  /\ walls_beyond (7 / 100) (bathtub_curve m) /\ in_t m = Some mt
  /\ (forall u, m_t_1_start mt = Some u -> Rabs (value u) < 2 / 5 * t) /\ (forall u, m_t_rise mt = Some u -> Rabs (value u) < 4 / 5 * t)
  /\ mask_margin m = Some margin /\ 0 <= margin <= 1 /\ n_sym_bad m = Some 0%nat.
Proof.
  intros FA.
  destruct (construct ten_wave None None (Some ten_mask) 10 (Some (Some free_config))) as [e0|] eqn:C; [|discriminate].
  assert (ALL : waves (e_waveforms e0) = [(map Q2R ten_t, map Q2R ten_y)] /\ e_t_delta e0 = 1 /\ e_config e0 = free_config /\ e_clock_edges e0 = None /\ e_clocks e0 = None /\ e_mask e0 = Some ten_mask /\ e_resolution e0 = 10%Z).
  { injection C as <-. split; [rewrite <- (tabulated ten_t 400), <- (tabulated ten_y 400); reflexivity|]. split; [|repeat split].
    change ((Q2R (nth 399 ten_t 0%Q) - Q2R (nth 0 ten_t 0%Q)) / INR 399 = 1). rewrite !ten_t_nth, !Q2R_int by lia. rewrite INR_IZR_INZ. cbn [Z.of_nat Pos.of_succ_nat Pos.succ]. lra. }
  destruct ALL as (WV & TD & CF & CE & CC & MK & RS). clear C.
  assert (AS : all_samples (e_waveforms e0) = map Q2R ten_y) by (unfold all_samples; rewrite WV; cbn [map concat snd]; apply app_nil_r).
  assert (LN : INR (length (map Q2R ten_y)) <= 10000) by (rewrite map_length; change (length ten_y) with 400%nat; rewrite INR_IZR_INZ; cbn [Z.of_nat Pos.of_succ_nat Pos.succ]; lra).
  assert (WO : wide_open e0 (Bands 0 0 1 1)).
  { exists 0, 1. rewrite CF, AS. split; [split; reflexivity|]. split; [reflexivity|]. split; [exact ten_range|]. split; [lra|]. split; [left; exact LN|]. cbn. lra. }
  assert (TG : map Q2R ten_t = map (fun j => 0 + INR j * 1) (seq 0 (length (map Q2R ten_y)))).
  { rewrite map_length. change (length ten_y) with 400%nat. unfold ten_t. rewrite map_map. apply map_ext. intros j. rewrite Q2R_int, INR_IZR_INZ. lra. }
  assert (SM : smooth_record BOTH (Bands 0 0 1 1) 40 (39 / 2) 1 (map Q2R ten_t, map Q2R ten_y) ten_signal 0 9 [1; 2; 4; 6; 7; 8; 9]%Z).
  { assert (NO : forall n j, middle 40 ten_signal (n - 1) + 39 / 2 < 0 + INR j * 1 < middle 40 ten_signal n - 39 / 2 -> False).
    { intros n j (A & B). unfold middle, ten_signal in A, B. cbn [fst] in A, B. rewrite INR_IZR_INZ in A, B. rewrite minus_IZR in A. assert (40 * n - 1 < Z.of_nat j < 40 * n)%Z; [|lia]. split; apply lt_IZR; rewrite ?minus_IZR, mult_IZR; lra. }
    exists 0. split; [exact TG|]. split; [|split; [|split]].
    - intros j n J N. cbn [snd] in *  . assert (E : nth_error (map Q2R ten_y) j = Some (nth j (map Q2R ten_y) 0)) by (apply nth_error_nth'; exact J). rewrite (ten_shows j n _ E (ten_in n j N)). unfold shows. cbn [low_from low_to high_from high_to]. destruct (snd ten_signal n); lra.
    - split; [intros j n v _ B; destruct (NO n j B)|intros j j' n v v' _ _ _ B; destruct (NO n j B)].
    - split; [discriminate|]. cbn [snd]. rewrite map_length. change (length ten_y - 1)%nat with 399%nat. unfold middle, ten_signal. cbn [fst]. rewrite INR_IZR_INZ. cbn [Z.of_nat Pos.of_succ_nat Pos.succ]. split; apply Rabs_le; lra.
    - split; [repeat constructor; lia|]. intros n. split; [intros H; repeat (destruct H as [<-|H]; [split; [lia|split; [discriminate|exact I]]|]); destruct H|].
      intros (N & D & _). assert (Q : (n = 1 \/ n = 2 \/ n = 3 \/ n = 4 \/ n = 5 \/ n = 6 \/ n = 7 \/ n = 8 \/ n = 9)%Z) by lia. repeat (destruct Q as [->|Q]; [first [cbn; tauto|exfalso; apply D; reflexivity]|]). subst n. cbn. tauto. }
  assert (SEE : forall (P : decision -> Prop) n, (3 <= n <= 6)%Z -> P (pattern ten_signal n) ->
    exists s n0 n1 ns k, In (s, (n0, n1, ns)) [(ten_signal, (0, 9, [1; 2; 4; 6; 7; 8; 9]))]%Z /\ (hd 0 ns <= k < last ns 0)%Z /\ (n0 + 3 <= k <= n1 - 3)%Z /\ P (pattern s k)).
  { intros P n N PN. exists ten_signal, 0%Z, 9%Z, [1; 2; 4; 6; 7; 8; 9]%Z, n. split; [left; reflexivity|]. cbn [hd last]. split; [lia|]. split; [lia|exact PN]. }
  assert (QU : forall l, find_levels round6 average_fit aic (e_config e0) (all_samples (e_waveforms e0)) false = Ok l -> l_low_snr l = false).
  { intros l FL. refine (C73_quiet round6 average_fit aic (e_config e0) _ false l 0 1 average_fit_averages _ _ _ _ _ FL); rewrite ?CF, ?AS.
    - split; reflexivity.
    - intros n Q. injection Q as <-. exact LN.
    - exact ten_range.
    - lra.
    - intros v V. destruct (ten_samples v V); lra. }
  destruct (C74_open round6 average_fit aic new_cdr percentile cast fuel draw e0 (Bands 0 0 1 1) 40 (39 / 2) (4 / 3) [(ten_signal, (0, 9, [1; 2; 4; 6; 7; 8; 9]))]%Z CdrProps.insertion_sort 1000000 true (402 / 10) true (1 / 10) average_fit_averages) as (m & e1 & edges & t & my & u0 & ua & uc & mt & CO & TP & IY & Y0 & YA & YC & IT & RD).
  all: try exact QU.
  all: rewrite ?CF, ?TD, ?WV.
  all: try (cbn [c_edge_lower c_edge_upper c_level_width c_cross_width c_polarity free_config low_to high_from]; lra).
  all: try assumption; try reflexivity; try lia; try (right; exists ten_mask; split; [exact MK|split; [exact FA|intros lo hi q A B _; exists ten_converted; split; [|exact ten_adjustable]; cbn [low_from low_to high_from high_to] in A, B; assert (AMP : amplitude free_config lo hi = 1) by (unfold amplitude; cbn [c_y_1 free_config]; lra); rewrite CF, AMP; apply ten_convert]]).
  - intros j [|x l] _ N; [congruence|eexists; reflexivity].
  - exact CdrProps.insertion_sorts.
  - constructor; [|constructor]. split; [exact SM|]. split; [cbn; lia|]. split; [|split; [cbn; lra|cbn; lia]].
    intros i a b A B. do 6 (destruct i as [|i]; [injection A as <-; injection B as <-; lia|]). destruct i; cbn in B; [discriminate|destruct i; discriminate].
  - apply (SEE (fun p => cur p = true) 3%Z); [lia|reflexivity].
  - apply (SEE (fun p => cur p = false) 4%Z); [lia|reflexivity].
  - apply (SEE (fun p => prev p <> cur p) 4%Z); [lia|discriminate].
  - exists ten_signal, 0%Z, 9%Z, [1; 2; 4; 6; 7; 8; 9]%Z. split; [left; reflexivity|cbn; lia].
  - assert (TB : Rabs (t - 40) <= 3) by (rewrite TD in TP; eapply Rle_trans; [exact TP|]; lra). cbv zeta in RD. rewrite CF, TD in RD. cbn [low_from low_to high_from high_to c_time_height c_edge_lower c_edge_upper free_config] in RD.
    destruct RD as (B0 & B1 & _ & ED & WA & MS). assert (V0 : value u0 = 0) by lra. assert (VA : value ua = 1) by lra. rewrite V0, VA in ED, MS. destruct ED as (ED1 & _ & _ & ED4). apply Rabs_le_between in TB.
    assert (IT1 : 1 / t <= 3 / 100) by (apply (Rmult_le_reg_r t); [lra|]; replace (1 / t * t) with 1 by (field; lra); lra). destruct ten_fits as (outlines & AD & FI).
    destruct (MS 0 1 ten_mask ten_converted 1000%nat outlines) as (margin & MM & MG & NB); [rewrite WV; intros wv v [<-|[]] V; destruct (ten_samples v V); lra|exact MK|apply ten_convert|lia|exact AD| |].
    { clear -FI IT1. induction FI as [|o os F FI IH]; constructor; [|exact IH]. destruct F as [F|F]; [left; revert F; apply Forall_impl; intros q (X & Y); split; lra|right; exact F]. }
    exists e0, m, e1, edges, t, mt, margin. split; [reflexivity|]. split; [exact CO|]. split; [apply Rabs_le; lra|]. split; [|split; [exact IT|split; [|split; [|split; [exact MM|]]]]].
    + destruct (WA ltac:(lra) ltac:(lra)) as (times & rates & EB & TI). exists times, rates. split; [exact EB|]. intros x I. specialize (TI x I). split; [|apply TI]. lra.
    + intros u U. destruct (ED1 ltac:(split; lra)) as (_ & X & _). specialize (X u U). lra.
    + intros u U. destruct (ED4 ltac:(split; lra) ltac:(split; lra)) as (X & _). specialize (X u U). lra.
    + change (IZR (1000 - Z.of_nat 1000)) with 0 in MG, NB. split; [lra|apply NB; lra].
Qed.
Print Assumptions C74_open_met.
