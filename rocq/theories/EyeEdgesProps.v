(** C73: each change of the data gives one edge. *)
From Coq Require Import ZArith Reals Bool List Lia Lra Sorted Permutation.
Import ListNotations.
From Verif Require Import Base Num RBool LinesSpec StatsModel EyeSpec Pam2Model Pam2Spec MathModel EyeImageModel EyeRunModel EyeRunSpec EyeRunProofs EyeLevelsProofs EyeLevelsProps EyeReportSpec EyeReportProps EyeDataSpec EyeDataProps EyeClockProps EyeOpenSpec EyeOpenProofs EyeOpenProps EyeTrackProps EyeEdgesSpec EyeEdgesProofs.
From Verif Require CdrModel CdrSpec UncertainProofs.
Local Open Scope R_scope.
Local Open Scope result_scope.

Lemma same_list : forall a b : list Z, StronglySorted Z.lt a -> StronglySorted Z.lt b -> (forall n, In n a <-> In n b) -> a = b.
Proof.
  assert (D : forall (z : Z) l, Forall (Z.lt z) l -> ~ In z l) by (intros z l F I; rewrite Forall_forall in F; specialize (F z I); lia).
  induction a as [|x a IH]; intros b SA SB E.
  - destruct b as [|y b]; [reflexivity|]. destruct (proj2 (E y) (or_introl eq_refl)).
  - destruct b as [|y b]; [destruct (proj1 (E x) (or_introl eq_refl))|]. inversion SA as [|? ? SA' FA]; subst. inversion SB as [|? ? SB' FB]; subst.
    assert (x = y). { destruct (proj1 (E x) (or_introl eq_refl)) as [Q|Q]; [congruence|]. destruct (proj2 (E y) (or_introl eq_refl)) as [Q'|Q']; [congruence|]. rewrite Forall_forall in FA, FB. specialize (FA _ Q'). specialize (FB _ Q). lia. }
    subst y. f_equal. apply IH; [exact SA'|exact SB'|]. intros n. specialize (E n). cbn in E. split; intros I; [destruct (proj1 E (or_intror I)) as [Q|Q]; [subst; destruct (D n a FA I)|exact Q]|destruct (proj2 E (or_intror I)) as [Q|Q]; [subst; destruct (D n b FB I)|exact Q]].
Qed.

(** In clean data with enough samples there is one edge for each change, none
    more and none less, in order, and it is at the boundary of the two symbols
    but for half the distance that they are not shown for and a sample. *)
Theorem C73_edges l p period near td w s n0 n1 ns :
  0 < td -> 0 < period -> near <= period / 2 -> td <= 2 * near -> ordered l -> clean_record p (l_rising l) (l_falling l) period near td w s n0 n1 ns ->
  exists es, selected_edges l p w = Ok es /\ Forall2 (fun x n => Rabs (x - boundary period s n) <= period / 2 - near + td) es ns.
Proof.
  intros TD P NP DN ORD (first & W & CL & SP & (SS & IN)). destruct w as [t y]. cbn [fst snd] in *  .
  destruct (sorted_edges l ORD period near td first y s n0 n1 TD P NP DN CL SP p) as (es & ns' & E & FN & SN & IN'). unfold grid in E. rewrite <- W in E.
  assert (ns' = ns) as ->. { apply same_list; [exact SN|exact SS|]. intros n. rewrite IN, IN'. reflexivity. }
  exists es. split; [exact E|]. clear -FN TD P NP DN ORD CL SP. induction FN as [|x n es ns N FN IH]; constructor; [|exact IH].
  exact (numbered_near l ORD period near td first y s n0 n1 TD P NP DN CL SP x n N).
Qed.
(** The changes of a record can always be listed. *)
Theorem C73_listed p s n0 n1 : exists ns, transitions p s n0 n1 ns.
Proof.
  set (test := fun n => xorb (snd s (n - 1)%Z) (snd s n) && match p with RISING => snd s n | FALLING => negb (snd s n) | BOTH => true end).
  exists (filter test (map (fun i => n0 + 1 + Z.of_nat i)%Z (seq 0 (Z.to_nat (n1 - n0))))). split.
  - generalize 0%nat. induction (Z.to_nat (n1 - n0)) as [|m IH]; intros k; [constructor|]. cbn [seq map filter]. destruct (test _); [|apply IH]. constructor; [apply IH|]. apply Forall_forall. intros z Z. apply filter_In in Z. destruct Z as (Z & _). apply in_map_iff in Z. destruct Z as (i & <- & I). apply in_seq in I. lia.
  - intros n. rewrite filter_In, in_map_iff. unfold change. assert (T : test n = true <-> snd s (n - 1)%Z <> snd s n /\ match p with RISING => snd s n = true | FALLING => snd s n = false | BOTH => True end).
    { unfold test. destruct (snd s (n - 1)%Z), (snd s n), p; cbn; intuition congruence. }
    rewrite T. split; intros (A & B); (split; [|exact B]).
    + destruct A as (i & <- & I). apply in_seq in I. lia.
    + exists (Z.to_nat (n - n0 - 1)). split; [lia|]. apply in_seq. lia.
Qed.
Lemma often_steady period near td s m n_comp es ns : 0 < period -> 25 * (period / 2 - near + td) <= period -> 0 <= period / 2 - near + td -> StronglySorted Z.lt ns -> often m n_comp ns ->
  Forall2 (fun x n => Rabs (x - boundary period s n) <= period / 2 - near + td) es ns ->
  (2 <= length es)%nat /\ steady period (m + 2 / 25) es /\ searchable period n_comp es
  /\ (IZR (last ns 0%Z - hd 0%Z ns) - 2 / 25) * period <= last es 0 - hd 0 es
  /\ (forall n, (hd 0 ns <= n < last ns 0)%Z -> hd 0 es <= middle period s n <= last es 0).
Proof.
  set (J := period / 2 - near + td). intros P J25 J0 SS (L2 & GA & DU & SE) F. assert (LE : length es = length ns) by (clear -F; induction F; cbn; congruence). split; [rewrite LE; exact L2|].
  assert (G : forall d, In d (CdrSpec.gaps es) -> period / 2 < d <= 20 * period).
  { clear L2 DU SE LE. induction F as [|x n es ns N F IH]; [intros ? []|]. inversion F as [|x' n' es' ns' N' F']; subst; [intros ? []|]. inversion SS as [|? ? SS' FA]; subst. intros d [<-|D].
    - assert (A : (0 < n' - n <= 19)%Z). { split; [rewrite Forall_forall in FA; specialize (FA n' (or_introl eq_refl)); lia|]. apply (GA 0%nat n n'); reflexivity. }
      destruct A as (A1 & A2). assert (B1 : 1 <= IZR n' - IZR n) by (rewrite <- minus_IZR; apply (IZR_le 1); lia). assert (B2 : IZR n' - IZR n <= 19) by (rewrite <- minus_IZR; apply (IZR_le _ 19); lia).
      apply Rabs_between in N. apply Rabs_between in N'. unfold boundary, middle in N, N'. cbn [CdrSpec.gaps]. apply (Rmult_le_compat_r period) in B1, B2; try lra.
    - apply IH; [exact SS'| |exact D]. intros i a b A B. apply (GA (S i)); assumption. }
  assert (HL : Rabs (hd 0 es - boundary period s (hd 0%Z ns)) <= J /\ Rabs (last es 0 - boundary period s (last ns 0%Z)) <= J).
  { destruct F as [|x n es ns N F]; [cbn in L2; lia|]. split; [exact N|]. clear -F N. revert x n N. induction F as [|x' n' es ns N' F IH]; intros x n N; [exact N|]. change (last (x :: x' :: es) 0) with (last (x' :: es) 0). change (last (n :: n' :: ns) 0%Z) with (last (n' :: ns) 0%Z). exact (IH x' n' N'). }
  destruct HL as (H0 & H1). apply Rabs_between in H0. apply Rabs_between in H1. unfold boundary, middle in H0, H1. rewrite minus_IZR in *  . set (a := IZR (hd 0%Z ns)) in *  . set (b := IZR (last ns 0%Z)) in *  .
  assert (N2 : 2 <= INR (length ns)) by (apply (le_INR 2); exact L2). assert (D0 : 0 <= b - a).
  { unfold a, b. rewrite <- minus_IZR. apply (IZR_le 0). destruct ns as [|z ns]; [cbn in L2; lia|]. cbn [hd]. assert (I : In (last (z :: ns) 0%Z) (z :: ns)) by (destruct (exists_last (l := z :: ns)) as (q & u & ->); [discriminate|]; rewrite last_last; apply in_or_app; right; left; reflexivity). destruct I as [<-|I]; [lia|]. inversion SS as [|? ? _ FA]; subst. rewrite Forall_forall in FA. specialize (FA _ I). lia. }
  assert (UP : last es 0 - hd 0 es <= (b - a + 2 / 25) * period) by lra. assert (DN : (b - a - 2 / 25) * period <= last es 0 - hd 0 es) by lra.
  split; [|split; [|split; [exact DN|]]].
  - split; [exact G|]. rewrite LE. eapply Rle_trans; [exact UP|]. apply Rmult_le_compat_r; [lra|]. lra.
  - unfold searchable. apply IZR_le in SE. rewrite !mult_IZR, !plus_IZR, minus_IZR in SE. fold a b in SE. set (d := (last es 0 - hd 0 es) / period). assert (DD : - (2 / 25) <= d <= b - a + 2 / 25). { assert (Q : d * period = last es 0 - hd 0 es) by (unfold d; field; lra). split; apply (Rmult_le_reg_r period); try exact P; rewrite Q; [|exact UP]. assert (0 <= (b - a) * period) by (apply Rmult_le_pos; lra). lra. }
    eapply Rle_trans; [|exact SE]. apply Rmult_le_compat; lra.
  - intros n (N0 & N1). unfold middle. apply IZR_le in N0. fold a in N0. assert (N1' : IZR n + 1 <= b) by (unfold b; rewrite <- plus_IZR; apply IZR_le; lia). apply (Rmult_le_compat_r period) in N0, N1'; lra.
Qed.

(** Whatever the thresholds between the bands are, smooth data is clean. *)
Theorem C73_smooth p k rise fall period near td w s n0 n1 ns : low_to k < fall -> fall <= rise -> rise < high_from k -> smooth_record p k period near td w s n0 n1 ns ->
  clean_record p rise fall period near td w s n0 n1 ns /\ sampled k period near td w s.
Proof.
  intros LF FR RH (first & W & CA & (EQ & MO) & SP & TR). split; [|exists first; split; assumption]. exists first. split; [exact W|]. split; [|split; assumption].
  assert (SH : forall b v, shows k b v -> beyond rise fall b v) by (intros b v; unfold shows, beyond; destruct b; lra). assert (NB : forall b v, beyond rise fall b v -> ~ beyond rise fall (negb b) v) by (intros b v; unfold beyond; destruct b; cbn; lra).
  split; [|split].
  - intros j n v E N. apply SH. assert (J : (j < length (snd w))%nat) by (apply nth_error_Some; congruence). rewrite <- (nth_error_nth _ _ 0 E). apply CA; assumption.
  - intros j n v E B S. apply NB, SH. exact (EQ j n v E B S).
  - intros j j' n v v' E E' L B B' BY. destruct (bool_dec (snd s (n - 1)%Z) (snd s n)) as [S|S]; [apply NB, SH; exact (EQ j' n v' E' B' S)|]. specialize (MO j j' n v v' E E' L B B' S). unfold beyond in *  . destruct (snd s n); cbn; lra.
Qed.

Lemma dev_within (l : list R) a b : (forall v, In v l -> a <= v <= b) -> a <= b -> dev l <= b - a.
Proof.
  intros B AB. unfold dev. destruct l as [|x l]; [cbn; lra|]. destruct (UncertainProofs.usamples_spec (x :: l) ltac:(discriminate)) as (u & -> & _ & M & P & SD & _). specialize (M a b B).
  assert (L : 0 < INR (length (x :: l))) by (apply lt_0_INR; cbn [length]; lia). assert (Q : forall k, (forall v, In v k -> a <= v <= b) -> StatsModel.rsum (map (fun e => (e - value u) ^ 2) k) <= INR (length k) * (b - a) ^ 2).
  { unfold StatsModel.rsum. induction k as [|v k IH]; intros H; [cbn; lra|]. cbn [map fold_right]. change (length (v :: k)) with (S (length k)). rewrite S_INR. specialize (IH (fun w I => H w (or_intror I))). specialize (H v (or_introl eq_refl)). assert ((v - value u) ^ 2 <= (b - a) ^ 2) by nra. lra. }
  specialize (Q _ B). assert (SQ : StatsModel.stddev u ^ 2 <= (b - a) ^ 2). { rewrite SD. apply (Rmult_le_reg_r (INR (length (x :: l)))); [exact L|]. set (r := StatsModel.rsum _) in *  . replace (r / INR (length (x :: l)) * INR (length (x :: l))) with r by (field; lra). lra. }
  destruct (Rle_lt_dec (StatsModel.stddev u) (b - a)) as [H|H]; [exact H|]. nra.
Qed.

Section Calculated.
Variable round6 : R -> R.
Variable fit : nat -> list R -> result (list (R * R * R)).
Variable aic : list (R * R * R) -> list R -> R.
Variable new_cdr : R -> cdr.
Variable percentile : list R -> R -> R.
Variable cast : R -> Z.
Variable fuel : nat.
Variable draw : drawing.
Let completed := completed round6 fit aic new_cdr percentile cast fuel draw.
Let find_levels := find_levels round6 fit aic.
(** As C72_calculated, with nothing assumed of the edges either: the data of each
    record are clean and change often enough.  The three kinds of symbols occur
    at least three symbols from the ends of a record, between changes. *)
Theorem C73_calculated e l k period near m' (sent : list (signal * (Z * Z * list Z))) sort n_comp compiled t0 resampled :
  find_levels (e_config e) (all_samples (e_waveforms e)) false = Ok l -> low_to k <= l_half l < high_from k -> ordered l -> l_low_snr l = false ->
  e_clock_edges e = None -> e_clocks e = None ->
  (forall es, recovery new_cdr (e_config e) es = CdrModel.run Int_part sort n_comp compiled false (Some t0) es resampled) -> CdrSpec.sorts sort -> (200000 <= n_comp)%Z -> 0 < t0 <= 900 ->
  99 / 100 * t0 <= period <= 101 / 100 * t0 -> near <= period / 2 -> m' <= 48 / 10 ->
  Forall2 (fun w r => let '(s, (n0, n1, ns)) := r in sampled k period near (e_t_delta e) w s
    /\ clean_record (c_polarity (e_config e)) (l_rising l) (l_falling l) period near (e_t_delta e) w s n0 n1 ns /\ often m' n_comp ns) (waves (e_waveforms e)) sent ->
  0 < e_t_delta e -> usable_mask draw k period (2 * (period / 2 - near + e_t_delta e)) e -> (1 <= e_resolution e)%Z -> c_point_cloud (e_config e) = true -> c_skip_measures (e_config e) = false ->
  - (1 / 2) <= c_edge_lower (e_config e) < 3 / 2 -> - (1 / 2) <= c_edge_upper (e_config e) < 3 / 2 ->
  let jitter := period / 2 - near + e_t_delta e in
  let off := (7 / 2 * (m' + 2 / 25) + 5 / 2) * jitter in
  let width := c_level_width (e_config e) in
  101 / 100 * e_t_delta e <= width * (period - 2 * jitter) -> width < 1 -> e_t_delta e <= c_cross_width (e_config e) * (period - 2 * jitter) -> c_cross_width (e_config e) <= 1 ->
  25 * jitter <= period -> (7 * (m' + 2 / 25) + 7) * jitter < period -> 3 * e_t_delta e + 2 * off < period -> off + e_t_delta e / 2 + 2 * jitter + width * (period + 2 * jitter) / 2 <= near ->
  let sends P := exists s n0 n1 ns n, In (s, (n0, n1, ns)) sent /\ (hd 0 ns <= n < last ns 0)%Z /\ (n0 + 3 <= n <= n1 - 3)%Z /\ P (pattern s n) in
  sends (fun p => cur p = true) -> sends (fun p => cur p = false) -> sends (fun p => prev p <> cur p) ->
  (exists s n0 n1 ns, In (s, (n0, n1, ns)) sent /\ (3 <= last ns 0 - hd 0 ns)%Z) ->
  exists m e1 edges t sent', completed false e m e1 edges t /\ Rabs (t - period) <= 2 * jitter
    /\ Forall2 (fun r s' => exists n, s' = renumbered n (fst r) period) sent sent' /\ Forall2 (clocks period off) edges sent'
    /\ reports_data e1 m k t (e_t_delta e) (combine (waves (e_waveforms e)) edges) sent'.
Proof.
  intros FL HALF ORD SNR CE CC RE SO NC T0 TR NH M5 SA TD UM RS PC SK EL EU jitter off wd LW LW1 CW CW1 J25 JM G2 NEAR sends S1 S0 SX LONG. assert (P : 0 < period) by lra.
  assert (DN : e_t_delta e <= 2 * near) by (unfold jitter in J25; lra). assert (J0 : 0 <= period / 2 - near + e_t_delta e) by lra.
  assert (ALL : forall w s n0 n1 ns, In (w, (s, (n0, n1, ns))) (combine (waves (e_waveforms e)) sent) -> clean_record (c_polarity (e_config e)) (l_rising l) (l_falling l) period near (e_t_delta e) w s n0 n1 ns /\
    exists es, selected_edges l (c_polarity (e_config e)) w = Ok es /\ (2 <= length es)%nat /\ steady period (m' + 2 / 25) es /\ searchable period n_comp es
      /\ (IZR (last ns 0%Z - hd 0%Z ns) - 2 / 25) * period <= last es 0 - hd 0 es /\ (forall n, (hd 0 ns <= n < last ns 0)%Z -> hd 0 es <= middle period s n <= last es 0)).
  { intros w s n0 n1 ns I. assert (Q : clean_record (c_polarity (e_config e)) (l_rising l) (l_falling l) period near (e_t_delta e) w s n0 n1 ns /\ often m' n_comp ns).
    { clear -SA I. induction SA as [|w' r ws sent A SA IH]; [destruct I|]. destruct I as [I|I]; [|exact (IH I)]. assert (w' = w) as -> by congruence. assert (r = (s, (n0, n1, ns))) as -> by congruence. apply A. }
    destruct Q as (CR & OF). split; [exact CR|]. destruct (C73_edges l _ period near (e_t_delta e) w s n0 n1 ns TD P NH DN ORD CR) as (es & E & F). exists es. split; [exact E|]. destruct CR as (_ & _ & _ & _ & (SS & _)). exact (often_steady period near (e_t_delta e) s m' n_comp es ns P J25 J0 SS OF F). }
  assert (LEFT : forall w, In w (waves (e_waveforms e)) -> exists s n0 n1 ns, In (w, (s, (n0, n1, ns))) (combine (waves (e_waveforms e)) sent)).
  { clear -SA. induction SA as [|w' r ws sent A SA IH]; intros w I; [destruct I|]. destruct I as [->|I]; [destruct r as (s & (n0 & n1) & ns); exists s, n0, n1, ns; left; reflexivity|]. destruct (IH w I) as (s & n0 & n1 & ns & Q). exists s, n0, n1, ns. right. exact Q. }
  assert (RIGHT : forall s n0 n1 ns, In (s, (n0, n1, ns)) sent -> exists w, In w (waves (e_waveforms e)) /\ In (w, (s, (n0, n1, ns))) (combine (waves (e_waveforms e)) sent) /\ In (w, s) (combine (waves (e_waveforms e)) (map fst sent))).
  { clear -SA. induction SA as [|w' r ws sent A SA IH]; intros s n0 n1 ns I; [destruct I|]. destruct I as [->|I]; [exists w'; split; [left; reflexivity|split; left; reflexivity]|]. destruct (IH s n0 n1 ns I) as (w & Q1 & Q2 & Q3). exists w. split; [right; exact Q1|]. split; right; assumption. }
  assert (FS : Forall2 (sampled k period near (e_t_delta e)) (waves (e_waveforms e)) (map fst sent)).
  { clear -SA. induction SA as [|w' r ws sent A SA IH]; [constructor|]. constructor; [|exact IH]. destruct r as (s & (n0 & n1) & ns). apply A. }
  assert (SEE : forall Q, sends Q -> in_sight l (c_polarity (e_config e)) period (e_t_delta e) (waves (e_waveforms e)) (map fst sent) Q).
  { intros Q (s & n0 & n1 & ns & n & I & HN & EN & PN). destruct (RIGHT s n0 n1 ns I) as (w & IW & IC & IM). destruct (ALL w s n0 n1 ns IC) as ((first & W & _ & (NE & B0 & B1) & _) & es & E & _ & _ & _ & _ & MID). exists w, s, es, first, n. split; [exact IM|]. split; [exact E|].
    assert (LW' : length (fst w) = length (snd w)) by (rewrite W, map_length, seq_length; reflexivity). assert (LP : (0 < length (snd w))%nat) by (destruct (snd w); [congruence|cbn; lia]).
    split; [rewrite W; destruct (snd w); [congruence|]; cbn; f_equal; lra|]. split; [exact (MID n HN)|]. apply Rabs_between in B0. apply Rabs_between in B1. unfold middle in B0, B1.
    assert (A0 : IZR n0 + 3 <= IZR n) by (rewrite <- plus_IZR; apply IZR_le; lia). assert (A1 : IZR n + 3 <= IZR n1) by (rewrite <- plus_IZR; apply IZR_le; lia). apply (Rmult_le_compat_r period) in A0, A1; [|lra|lra].
    unfold jitter in J25. unfold end_time, middle. rewrite LW'. rewrite minus_INR in B1 by lia. change (INR 1) with 1 in B1. split; [lra|]. split; [lra|exact PN]. }
  destruct (C72_calculated round6 fit aic new_cdr percentile cast fuel draw e l k period near (m' + 2 / 25) (map fst sent) sort n_comp compiled t0 resampled FL HALF) as (m & e1 & edges & t & sent' & CO & TP & RN & CK & RD); try assumption.
  - destruct ORD. lra.
  - lra.
  - intros w I. destruct (LEFT w I) as (s & n0 & n1 & ns & IC). destruct (ALL w s n0 n1 ns IC) as (_ & es & E & L2 & ST & SE & _). exists es. repeat (split; [assumption|]). exact SE.
  - destruct LONG as (s & n0 & n1 & ns & I & L3). destruct (RIGHT s n0 n1 ns I) as (w & IW & IC & _). destruct (ALL w s n0 n1 ns IC) as (_ & es & E & _ & _ & _ & DU & _). exists w, es. split; [exact IW|]. split; [exact E|].
    apply (IZR_le 3) in L3. assert ((3 - 2 / 25) * period <= (IZR (last ns 0%Z - hd 0%Z ns) - 2 / 25) * period) by (apply Rmult_le_compat_r; lra). lra.
  - exact (SEE _ S1).
  - exact (SEE _ S0).
  - exact (SEE _ SX).
  - exists m, e1, edges, t, sent'. split; [exact CO|]. split; [exact TP|]. split; [|split; [exact CK|exact RD]]. clear -RN. remember (map fst sent) as ss eqn:E. revert sent E. induction RN as [|s s' ss ss' A RN IH]; intros [|r sent] E; try discriminate; [constructor|]. cbn in E. assert (fst r = s) by congruence. assert (ss = map fst sent) by congruence. constructor; [subst s; exact A|apply IH; assumption].
Qed.
(** An open eye with room for the hysteresis around the decision level. *)
Definition wide_open (e : eye) (k : bands) : Prop :=
  exists lo hi, automatic (e_config e) /\ c_y_th (e_config e) = None
    /\ ranges lo hi (all_samples (e_waveforms e)) /\ lo < hi /\ represented (c_levels_n_max (e_config e)) lo hi (all_samples (e_waveforms e))
    /\ let h := match c_hysteresis (e_config e) with Some h => h | None => 1001 / 1000 * c_hysteresis_ua (e_config e) * (hi - lo) end in
       0 <= h /\ low_to k <= lo + (hi - lo) / 5 - h / 2 /\ hi - (hi - lo) / 5 + h / 2 <= high_from k.
Theorem C73_thresholds e k l : averages fit -> wide_open e k -> find_levels (e_config e) (all_samples (e_waveforms e)) false = Ok l -> l_low_snr l = false ->
  low_to k < l_falling l /\ l_falling l <= l_half l <= l_rising l /\ l_rising l < high_from k.
Proof.
  intros AV (lo & hi & A & T & RG & L & RP & W) FL SNR. unfold find_levels in FL. destruct (C71_threshold _ _ _ _ _ _ _ lo hi A AV RG L RP FL) as (H & U). specialize (H T). specialize (U SNR).
  destruct (thinned_range _ _ _ _ RG L RP) as (z & lo' & hi' & TH & RG' & BL & BH). destruct (levels_between round6 fit aic _ _ _ l lo' hi' A AV FL z TH RG') as (Z0 & Z1 & _).
  destruct (C57_thresholds _ _ _ _ _ _ _ FL) as (_ & _ & _ & _ & MI & H1 & H2). cbv zeta in W. destruct (c_hysteresis (e_config e)) as [h|]; [specialize (H1 h eq_refl); lra|]. specialize (H2 eq_refl). destruct W as (W0 & W1 & W2).
  assert (UA : l_ua l <= 1001 / 1000 * (hi - lo)) by lra. assert (Q0 : 0 <= c_hysteresis_ua (e_config e)). { apply (Rmult_le_reg_r (1001 / 1000 * (hi - lo))); lra. }
  pose proof (Rmult_le_compat_l _ _ _ Q0 UA) as Q1. pose proof (Rmult_le_pos _ _ Q0 U) as Q2. lra.
Qed.
(** Nor is it found too noisy, if all samples (up to the limit) are in the lowest
    or the highest seventh of their range. *)
Theorem C73_quiet c y d l lo hi : averages fit -> automatic c -> short c y -> ranges lo hi y -> lo < hi ->
  (forall v, In v y -> v <= lo + (hi - lo) / 7 \/ hi - (hi - lo) / 7 <= v) -> find_levels c y d = Ok l -> l_low_snr l = false.
Proof.
  intros AV (A & B) SH RG L BD E. destruct (ranges_py _ _ _ RG) as (PL & PH & N). pose proof RG as (_ & _ & BO). unfold find_levels, EyeRunModel.find_levels in E. rewrite A, B in E. rewrite runner_eq, (thinned_short c y SH N) in E. cbn [bind] in E.
  destruct (split_levels round6 fit aic y) as [[u0 u1]|] eqn:S; [|discriminate]. cbn [bind] in E. apply (f_equal (fun r => match r with Ok x => x | Err _ => l end)) in E. cbv beta iota zeta in E. subst l. cbn [l_low_snr].
  unfold split_levels in S. rewrite PL, PH in S. cbn [bind] in S. set (mid := (lo + hi) / 2) in *  . set (f0 := filter (fun v => Rltb v mid) y) in *  . set (f1 := filter (fun v => Rltb mid v) y) in *  .
  destruct (fit_mix_samples round6 fit aic f0 2) as [g0|] eqn:F0; [|discriminate]. cbn [bind] in S. destruct (fit_mix_samples round6 fit aic f1 2) as [g1|] eqn:F1; [|discriminate]. cbn [bind] in S.
  assert (B0 : forall v, In v f0 -> lo <= v <= lo + (hi - lo) / 7) by (intros v V; apply filter_In in V; destruct V as (V & Q); apply Rltb_true in Q; unfold mid in Q; specialize (BO v V); destruct (BD v V); lra).
  assert (B1 : forall v, In v f1 -> hi - (hi - lo) / 7 <= v <= hi) by (intros v V; apply filter_In in V; destruct V as (V & Q); apply Rltb_true in Q; unfold mid in Q; specialize (BO v V); destruct (BD v V); lra).
  destruct (fit_between round6 fit aic AV f0 g0 _ _ B0 F0) as (N0 & M0). destruct (fit_between round6 fit aic AV f1 g1 _ _ B1 F1) as (N1 & M1).
  destruct (center_between g0 _ _ N0 M0) as (c0 & E0 & C0). destruct (center_between g1 _ _ N1 M1) as (c1 & E1 & C1). rewrite E0 in S. cbn [bind] in S. rewrite E1 in S. cbn [bind] in S. injection S as <- <-. cbn [StatsModel.stddev].
  change (match usamples f0 with Some u => StatsModel.stddev u | None => 0 end) with (dev f0). change (match usamples f1 with Some u => StatsModel.stddev u | None => 0 end) with (dev f1).
  pose proof (dev_pos f0). pose proof (dev_pos f1). pose proof (dev_within f0 _ _ B0 ltac:(lra)). pose proof (dev_within f1 _ _ B1 ltac:(lra)). destruct (Reqb (dev f1 + dev f0) 0) eqn:NZ; [reflexivity|]. apply Reqb_false in NZ.
  change (Rltb ((c1 - c0) / (dev f1 + dev f0)) 2 = false). apply Rltb_false. apply (Rmult_le_reg_r (dev f1 + dev f0)); [lra|]. replace ((c1 - c0) / (dev f1 + dev f0) * (dev f1 + dev f0)) with (c1 - c0) by (field; lra). lra.
Qed.
(** Nothing configured about levels, nothing assumed of levels, edges, clock or
    run, except that the eye is not found too noisy. *)
Theorem C73_open e k period near m' (sent : list (signal * (Z * Z * list Z))) sort n_comp compiled t0 resampled :
  averages fit -> (forall j l, (1 <= j <= 2)%nat -> l <> [] -> exists m, fit j l = Ok m) -> wide_open e k ->
  (forall l, find_levels (e_config e) (all_samples (e_waveforms e)) false = Ok l -> l_low_snr l = false) ->
  e_clock_edges e = None -> e_clocks e = None ->
  (forall es, recovery new_cdr (e_config e) es = CdrModel.run Int_part sort n_comp compiled false (Some t0) es resampled) -> CdrSpec.sorts sort -> (200000 <= n_comp)%Z -> 0 < t0 <= 900 ->
  99 / 100 * t0 <= period <= 101 / 100 * t0 -> near <= period / 2 -> m' <= 48 / 10 ->
  Forall2 (fun w r => let '(s, (n0, n1, ns)) := r in smooth_record (c_polarity (e_config e)) k period near (e_t_delta e) w s n0 n1 ns /\ often m' n_comp ns) (waves (e_waveforms e)) sent ->
  0 < e_t_delta e -> usable_mask draw k period (2 * (period / 2 - near + e_t_delta e)) e -> (1 <= e_resolution e)%Z -> c_point_cloud (e_config e) = true -> c_skip_measures (e_config e) = false ->
  - (1 / 2) <= c_edge_lower (e_config e) < 3 / 2 -> - (1 / 2) <= c_edge_upper (e_config e) < 3 / 2 ->
  let jitter := period / 2 - near + e_t_delta e in
  let off := (7 / 2 * (m' + 2 / 25) + 5 / 2) * jitter in
  let width := c_level_width (e_config e) in
  101 / 100 * e_t_delta e <= width * (period - 2 * jitter) -> width < 1 -> e_t_delta e <= c_cross_width (e_config e) * (period - 2 * jitter) -> c_cross_width (e_config e) <= 1 ->
  25 * jitter <= period -> (7 * (m' + 2 / 25) + 7) * jitter < period -> 3 * e_t_delta e + 2 * off < period -> off + e_t_delta e / 2 + 2 * jitter + width * (period + 2 * jitter) / 2 <= near ->
  let sends P := exists s n0 n1 ns n, In (s, (n0, n1, ns)) sent /\ (hd 0 ns <= n < last ns 0)%Z /\ (n0 + 3 <= n <= n1 - 3)%Z /\ P (pattern s n) in
  sends (fun p => cur p = true) -> sends (fun p => cur p = false) -> sends (fun p => prev p <> cur p) ->
  (exists s n0 n1 ns, In (s, (n0, n1, ns)) sent /\ (3 <= last ns 0 - hd 0 ns)%Z) ->
  exists m e1 edges t sent', completed false e m e1 edges t /\ Rabs (t - period) <= 2 * jitter
    /\ Forall2 (fun r s' => exists n, s' = renumbered n (fst r) period) sent sent' /\ Forall2 (clocks period off) edges sent'
    /\ reports_data e1 m k t (e_t_delta e) (combine (waves (e_waveforms e)) edges) sent'.
Proof.
  intros AV FT WO SNR CE CC RE SO NC T0 TR NH M5 SA. pose proof WO as (lo & hi & A & TH & RG & L & RP & _).
  destruct (C71_found round6 fit aic (e_config e) (all_samples (e_waveforms e)) false lo hi A AV FT RG L RP) as (l & FL). specialize (SNR l FL). destruct (C73_thresholds e k l AV WO FL SNR) as (T1 & T2 & T3).
  apply (C73_calculated e l k period near m' sent sort n_comp compiled t0 resampled FL); try assumption; [lra|].
  clear -SA T1 T2 T3. induction SA as [|w r ws sent Q SA IH]; constructor; [|exact IH]. destruct r as (s & (n0 & n1) & ns). destruct Q as (SM & OF). destruct (C73_smooth _ k (l_rising l) (l_falling l) _ _ _ _ _ _ _ _ T1 ltac:(lra) T3 SM) as (CR & SD). split; [exact SD|]. split; [exact CR|exact OF].
Qed.
End Calculated.
Print Assumptions C73_edges.
Print Assumptions C73_listed.
Print Assumptions C73_calculated.
Print Assumptions C73_smooth.
Print Assumptions C73_thresholds.
Print Assumptions C73_open.
Print Assumptions C73_quiet.
