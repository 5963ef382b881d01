(** C70: records that last different times are not reported alike in another
    order. *)
From Coq Require Import ZArith Reals Bool List Lia Lra Permutation.
Import ListNotations.
From Verif Require Import Base Num RBool StatsModel EyeImageModel EyeRunModel EyeRunSpec EyeRunProofs EyeReportSpec EyeReportProps EyeDataSpec EyeDataProps EyeOrderSpec EyeOrderProps EyeDebugProps.
Local Open Scope R_scope.

(** A record with a sample every second and one with a sample every two. *)
Definition two_wave (swap : bool) : ndarray :=
  NdArray [2; 2; 28]%nat (fun i => match i with
    | [r; 0%nat; j] => if Bool.eqb swap (r =? 0)%nat then 2 * INR j else INR j
    | [_; 1%nat; j] => level_at j
    | _ => 0 end).
Definition two_config : config :=
  Config None (1 / 10) (Some 10000) RISING None 1 true (3 / 10) (3 / 10) (5 / 100) (2 / 10) (8 / 10) 0 true (Some 0) (Some 1) None.
Lemma pair_positive : forall p, is_period [bits_clock; bits_clock] p -> 0 < p.
Proof. intros p (l & IL & k & a & b & A & B & ->). assert (l = bits_clock) as -> by (destruct IL as [<-|[<-|[]]]; reflexivity). unfold bits_clock in A, B. destruct k as [|[|[|k]]]; cbn in A, B; [injection A as <-; injection B as <-; lra..|destruct k as [|k]; [discriminate|destruct k; discriminate]]. Qed.
Lemma used_all t td first last used : symbols_of t td first last bits_clock used -> (forall b, In b bits_clock -> well_inside t td first last b) -> length used = 4%nat.
Proof.
  intros (keep & -> & K) W. assert (E : filter keep bits_clock = bits_clock); [|rewrite E; reflexivity].
  assert (A : forall b, In b bits_clock -> keep b = true) by (intros b I; apply (K b I), W, I). revert A. generalize bits_clock as l. clear. induction l as [|x l IH]; intro A; [reflexivity|]. cbn [filter]. rewrite (A x (or_introl eq_refl)), IH; [reflexivity|]. intros b I. apply A. right. exact I.
Qed.
Lemma used_some t td first last used : symbols_of t td first last bits_clock used -> (length used <= 4)%nat.
Proof. intros (keep & -> & _). change 4%nat with (length bits_clock). generalize bits_clock as l. clear. induction l as [|x l IH]; cbn; [lia|]. destruct (keep x); cbn; lia. Qed.

Theorem C70_durations_refuted round6 fit aic new_cdr percentile cast fuel draw : exists e e' m m' f f',
  pair_of [1; 0]%nat (two_wave false) (two_wave true) None None (Some pair_clock) (Some pair_clock) None 10 (Some (Some two_config)) e e'
  /\ levels_of_values fit aic (e_config e) false
  /\ calculate round6 fit aic new_cdr percentile cast fuel draw false e = (Ok m, f)
  /\ calculate round6 fit aic new_cdr percentile cast fuel draw false e' = (Ok m', f')
  /\ (n_samples m' < n_samples m)%Z.
Proof.
  destruct (construct (two_wave false) None (Some pair_clock) None 10 (Some (Some two_config))) as [e|] eqn:C; [|discriminate].
  destruct (construct (two_wave true) None (Some pair_clock) None 10 (Some (Some two_config))) as [e'|] eqn:C'; [|discriminate].
  assert (I27 : INR 27 = 27) by (rewrite INR_IZR_INZ; reflexivity). assert (I0 : INR 0 = 0) by reflexivity.
  assert (TD : e_t_delta e = 1) by (injection C as <-; change ((INR 27 - INR 0) / INR 27 = 1); rewrite I27, I0; lra).
  assert (TD' : e_t_delta e' = 2) by (injection C' as <-; change ((2 * INR 27 - 2 * INR 0) / INR 27 = 2); rewrite I27, I0; lra).
  set (fast := map INR (seq 0 28)). set (slow := map (fun j => 2 * INR j) (seq 0 28)). set (y := map level_at (seq 0 28)).
  assert (WV : waves (e_waveforms e) = [(fast, y); (slow, y)]) by (injection C as <-; reflexivity). assert (WV' : waves (e_waveforms e') = [(slow, y); (fast, y)]) by (injection C' as <-; reflexivity).
  assert (PO : pair_of [1; 0]%nat (two_wave false) (two_wave true) None None (Some pair_clock) (Some pair_clock) None 10 (Some (Some two_config)) e e').
  { split; [apply perm_swap|]. split; [|split; [exact I|split; [reflexivity|split; assumption]]]. split; [reflexivity|]. split; [reflexivity|]. intros i k j J. cbn in J. destruct i as [|[|i]]; [| |lia]; cbn; destruct k as [|[|k]]; reflexivity. }
  assert (CF : e_config e = two_config) by (injection C as <-; reflexivity). assert (CF' : e_config e' = two_config) by (injection C' as <-; reflexivity).
  assert (CE : e_clock_edges e = Some [bits_clock; bits_clock]) by (injection C as <-; reflexivity). assert (CE' : e_clock_edges e' = Some [bits_clock; bits_clock]) by (injection C' as <-; reflexivity).
  assert (MC : e_converted e = None) by (injection C as <-; reflexivity). assert (MC' : e_converted e' = None) by (injection C' as <-; reflexivity).
  assert (RS : e_resolution e = 10%Z) by (injection C as <-; reflexivity). assert (RS' : e_resolution e' = 10%Z) by (injection C' as <-; reflexivity). clear C C'.
  assert (RUN : forall e0 td ts, e_config e0 = two_config -> e_clock_edges e0 = Some [bits_clock; bits_clock] -> e_converted e0 = None -> e_resolution e0 = 10%Z -> e_t_delta e0 = td -> 0 < td -> waves (e_waveforms e0) = ts -> length ts = 2%nat -> (forall w, In w ts -> fst w <> []) ->
    exists m f, completed round6 fit aic new_cdr percentile cast fuel draw false e0 m f [bits_clock; bits_clock] 4).
  { intros e0 td ts F1 F2 F3 F4 F5 F6 F7 F8 F9.
    assert (FL : exists l, find_levels round6 fit aic (e_config e0) (all_samples (e_waveforms e0)) false = Ok l) by (rewrite F1; eexists; reflexivity). destruct FL as (l & FL).
    destruct (skip_completes round6 fit aic new_cdr percentile cast fuel draw false e0 l [bits_clock; bits_clock] 4 FL) as (m & f & CA & GE);
      [unfold clock; rewrite F2; reflexivity|exact pair_period|lra|lra|intro Q; discriminate Q|rewrite F7, F8; cbn; lia|rewrite F7; exact F9|exact F3|rewrite F1; reflexivity|rewrite F1; reflexivity|rewrite F4; lia|rewrite F1; cbn; lra|rewrite F1; cbn; lra|].
    exists m, f. split; [exact CA|]. split; [exact GE|]. split; [exact pair_positive|]. split; [exact pair_period|]. lra. }
  destruct (RUN e 1 _ CF CE MC RS TD ltac:(lra) WV eq_refl) as (m & f & CO); [intros w [<-|[<-|[]]]; discriminate|].
  destruct (RUN e' 2 _ CF' CE' MC' RS' TD' ltac:(lra) WV' eq_refl) as (m' & f' & CO'); [intros w [<-|[<-|[]]]; discriminate|]. clear RUN.
  exists e, e', m, m', f, f'. split; [exact PO|]. split; [left; rewrite CF; repeat split; discriminate|]. split; [apply CO|]. split; [apply CO'|].
  destruct (C58_symbols round6 fit aic new_cdr percentile cast fuel draw false e m f _ 4 CO) as (syms & F & _ & N & S1 & S2).
  destruct (C58_symbols round6 fit aic new_cdr percentile cast fuel draw false e' m' f' _ 4 CO') as (syms' & F' & _ & N' & S1' & S2').
  rewrite WV, TD in F. rewrite WV', TD' in F'. cbn [combine] in F, F'.
  assert (END : end_time 1 0 28 = 27) by (unfold end_time; rewrite INR_IZR_INZ; cbn [Z.of_nat Pos.of_succ_nat Pos.succ]; lra).
  assert (LEN : length (concat syms) = 8%nat).
  { assert (ONE : forall ts ss, length ts = 28%nat -> nth_error ts 0 = Some 0 -> record_symbols 4 1 (ts, y, bits_clock) ss -> length ss = 4%nat).
    { intros ts ss L F0 (first & F1 & U & _). cbn [fst snd] in F1, U. assert (first = 0) as -> by congruence. rewrite L, END in U. rewrite <- (map_length fst ss). apply (used_all _ _ _ _ _ U). intros b IB. unfold well_inside. unfold bits_clock in IB. destruct IB as [<-|[<-|[<-|[<-|[]]]]]; lra. }
    inversion F as [|? s1 ? r1 H1 F1]; subst. inversion F1 as [|? s2 ? r2 H2 F2]; subst. inversion F2; subst. cbn [concat]. rewrite !app_length, (ONE fast s1), (ONE slow s2); [reflexivity|reflexivity|cbn; f_equal; lra|exact H2|reflexivity|reflexivity|exact H1]. }
  assert (LEN' : (length (concat syms') <= 8)%nat).
  { assert (ONE : forall ts ss, record_symbols 4 2 (ts, y, bits_clock) ss -> (length ss <= 4)%nat) by (intros ts ss (first & _ & U & _); cbn [fst snd] in U; rewrite <- (map_length fst ss); exact (used_some _ _ _ _ _ U)).
    inversion F' as [|? s1 ? r1 H1 F1]; subst. inversion F1 as [|? s2 ? r2 H2 F2]; subst. inversion F2; subst. cbn [concat]. rewrite !app_length. apply ONE in H1, H2. cbn [length]. lia. }
  rewrite N, LEN, TD in S2. rewrite N', TD' in S1'. apply lt_IZR.
  assert (IZR (Z.of_nat (length (concat syms'))) <= 8) by (apply IZR_le; lia). cbn [Z.of_nat Pos.of_succ_nat Pos.succ] in S2. lra.
Qed.
Print Assumptions C70_durations_refuted.
