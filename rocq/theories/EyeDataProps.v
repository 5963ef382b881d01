(** C67: the data carried by a signal is recovered by an eye diagram. *)
From Coq Require Import ZArith Reals Bool List Lia Lra.
Import ListNotations.
From Verif Require Import Base Num RBool DrawSpec LinesModel StatsModel MaskModel EyeModel EyeSpec UncertainProofs Pam2Model Pam2Spec Pam2Proofs MathModel EyeImageModel EyeRunModel EyeRunSpec EyeReportSpec EyeReportProps EyeDataSpec.
From Verif Require EyeImageSpec EyeImageProps.
Local Open Scope R_scope.
Lemma Rabs_le_between x a : Rabs x <= a -> - a <= x <= a.
Proof. unfold Rabs. destruct (Rcase_abs x); lra. Qed.

(** ** Lists *)
(** If everything between two kept elements is kept, a slice is kept. *)
Lemma convex_filter {X} (keep : X -> bool) (l : list X) :
  (forall l1 a l2 b l3 c l4, l = l1 ++ a :: l2 ++ b :: l3 ++ c :: l4 -> keep a = true -> keep c = true -> keep b = true) ->
  exists pre mid post, l = pre ++ mid ++ post /\ filter keep l = mid /\ Forall (fun x => keep x = false) pre /\ Forall (fun x => keep x = true) mid /\ Forall (fun x => keep x = false) post.
Proof.
  induction l as [|x l IH]; intro C; [exists [], [], []; repeat split; constructor|].
  destruct IH as (pre & mid & post & E & F & P & M & Q); [intros l1 a l2 b l3 c l4 -> ; exact (C (x :: l1) a l2 b l3 c l4 eq_refl)|].
  cbn [filter]. destruct (keep x) eqn:K.
  - destruct mid as [|c mid].
    + exists [], [x], l. split; [reflexivity|]. split; [rewrite F; reflexivity|]. split; [constructor|]. split; [constructor; [exact K|constructor]|].
      rewrite E. cbn [app]. apply Forall_app. split; assumption.
    + destruct pre as [|b pre].
      * exists [], (x :: c :: mid), post. split; [rewrite E; reflexivity|]. split; [rewrite F; reflexivity|]. split; [constructor|]. split; [constructor; assumption|exact Q].
      * exfalso. inversion_clear P as [|? ? PB _]. inversion_clear M as [|? ? MC _].
        assert (B : keep b = true); [|congruence]. apply (C [] x [] b pre c (mid ++ post)); [rewrite E; reflexivity|exact K|exact MC].
  - exists (x :: pre), mid, post. split; [rewrite E; reflexivity|]. split; [exact F|]. split; [constructor; assumption|]. split; assumption.
Qed.
Lemma mean_band lo hi (l : list R) : l <> [] -> Forall (fun v => lo <= v <= hi) l -> lo <= Pam2Spec.mean l <= hi.
Proof.
  intros N F. assert (P : 0 < INR (length l)) by (destruct l; [congruence|apply lt_0_INR; cbn; lia]).
  assert (S : INR (length l) * lo <= StatsModel.rsum l <= INR (length l) * hi).
  { clear N P. induction F as [|x l B F IH]; [cbn; lra|]. cbn [length]. rewrite S_INR. unfold StatsModel.rsum in *  . cbn [fold_right]. lra. }
  unfold Pam2Spec.mean. split; apply (Rmult_le_reg_l (INR (length l)) _ _ P); replace (INR (length l) * (StatsModel.rsum l / INR (length l))) with (StatsModel.rsum l) by (field; lra); lra.
Qed.

(** ** One symbol *)
Section Symbol.
Variable k : bands.
Variables t period near jitter td first w : R.
Hypothesis T : 0 < t.
Hypothesis NEAR : jitter + td / 2 + Rabs (t - period) + w * t / 2 <= near.
Lemma seen_shows y s b n ps (c : Z) : carries k period near td first y s -> Rabs (b - middle period s n) <= jitter -> seen t td first b y ps ->
  (c = -1 \/ c = 0 \/ c = 1)%Z -> forall w', w' <= w -> Forall (shows k (snd s (n + c)%Z)) (values_in (1 / 2 + IZR c) w' ps).
Proof.
  intros CA J (b' & lo & num & B & _ & L & _ & _ & ->) C w' W. apply Forall_forall. intros v I. unfold values_in in I. apply in_map_iff in I. destruct I as (p & <- & I).
  apply filter_In in I. destruct I as [I F]. unfold view in I. apply in_map_iff in I. destruct I as (j & <- & J'). apply in_seq in J'. cbn [fst snd] in F |- * .
  apply andb_true_iff in F. destruct F as [F1 F2]. apply Rleb_true in F1, F2. apply CA; [lia|].
  assert (Q : Rabs (first + INR j * td - b' - IZR c * t) <= w * t / 2).
  { set (x := first + INR j * td - b') in *  . assert (E : x = x / t * t) by (field; lra). apply Rabs_le. nra. }
  replace (first + INR j * td - middle period s (n + c)%Z) with ((first + INR j * td - b' - IZR c * t) + (b' - b) + (b - middle period s n) + IZR c * (t - period))
    by (unfold middle; rewrite plus_IZR; ring).
  assert (CT : Rabs (IZR c * (t - period)) <= Rabs (t - period)).
  { rewrite Rabs_mult. assert (Rabs (IZR c) <= 1) by (destruct C as [-> | [-> | ->]]; apply Rabs_le; cbn; lra). pose proof (Rabs_pos (t - period)). nra. }
  pose proof (Rabs_triang (first + INR j * td - b' - IZR c * t + (b' - b) + (b - middle period s n)) (IZR c * (t - period))) as T1.
  pose proof (Rabs_triang (first + INR j * td - b' - IZR c * t + (b' - b)) (b - middle period s n)) as T2.
  pose proof (Rabs_triang (first + INR j * td - b' - IZR c * t) (b' - b)) as T3. lra.
Qed.
Lemma shown_decides half c0 ps bit dec : low_to k <= half < high_from k -> Forall (shows k bit) (values_in c0 w ps) -> decides c0 w half ps dec -> dec = bit.
Proof.
  intros H F [N D]. destruct bit; cbn [shows] in F; destruct (mean_band _ _ _ N F) as [M1 M2].
  - apply D. lra.
  - destruct dec; [|reflexivity]. assert (half < Pam2Spec.mean (values_in c0 w ps)) by (apply D; reflexivity). lra.
Qed.
Lemma symbol_decided half y s b n ps dec : low_to k <= half < high_from k -> carries k period near td first y s -> Rabs (b - middle period s n) <= jitter -> seen t td first b y ps ->
  decided half w (ps, dec) -> dec = pattern s n.
Proof.
  intros H CA J SE (D1 & D2 & D3). cbn [fst snd] in D1, D2, D3. destruct dec as [[p c] x]. unfold prev, cur, next in D1, D2, D3. cbn [fst snd] in D1, D2, D3. unfold pattern.
  pose proof (seen_shows y s b n ps (-1) CA J SE ltac:(lia) w (Rle_refl w)) as S1. pose proof (seen_shows y s b n ps 0 CA J SE ltac:(lia) w (Rle_refl w)) as S2.
  pose proof (seen_shows y s b n ps 1 CA J SE ltac:(lia) w (Rle_refl w)) as S3.
  replace (1 / 2 + -1) with (-1 / 2) in S1 by lra. replace (1 / 2 + 0) with (1 / 2) in S2 by lra. replace (1 / 2 + 1) with (3 / 2) in S3 by lra.
  rewrite (shown_decides _ _ _ _ _ H S1 D1), (shown_decides _ _ _ _ _ H S2 D2), (shown_decides _ _ _ _ _ H S3 D3).
  rewrite Z.add_0_r. reflexivity.
Qed.
End Symbol.

(** ** One record *)
Lemma nth_slice {X} (pre mid post : list X) i : nth_error mid i <> None -> nth_error (pre ++ mid ++ post) (length pre + i) = nth_error mid i.
Proof. intro N. apply nth_error_Some in N. rewrite nth_error_app2 by lia. replace (length pre + i - length pre)%nat with i by lia. apply nth_error_app1. exact N. Qed.
Lemma record_data k t period near jitter td w half record s syms pd : 0 < t -> 0 < td -> low_to k <= half < high_from k ->
  jitter + td / 2 + Rabs (t - period) + w * t / 2 <= near -> 3 * td + 2 * jitter < period ->
  record_of k period near jitter td record s -> record_symbols t td record syms -> map fst pd = map snd syms -> Forall (decided half w) pd ->
  exists part, whole_part t td record part /\ map snd pd = map (pattern s) (numbers part)
    /\ forall w', w' <= w -> Forall (fun q => Forall (shows k (cur (snd q))) (values_in (1 / 2) w' (fst q))) pd.
Proof.
  intros T TD H NEAR GAP [CA CL] (first & F0 & (keep & U & KP) & SE) EP DE. specialize (CA first F0). destruct record as [[ts y] edges]. cbn [fst snd] in *  .
  set (last := end_time td first (length ts)) in *  .
  (* the edges used are a slice *)
  destruct (convex_filter keep edges) as (pre & mid & post & EE & FM & PF & MT & QF).
  { intros l1 a l2 b l3 c l4 E KA KC.
    assert (NA : nth_error edges (length l1) = Some a) by (rewrite E, nth_error_app2, Nat.sub_diag by lia; reflexivity).
    assert (NB : nth_error edges (length l1 + 1 + length l2) = Some b).
    { rewrite E, nth_error_app2 by lia. replace (length l1 + 1 + length l2 - length l1)%nat with (S (length l2)) by lia. cbn [nth_error]. rewrite nth_error_app2, Nat.sub_diag by lia. reflexivity. }
    assert (NC : nth_error edges (length l1 + 1 + length l2 + 1 + length l3) = Some c).
    { rewrite E, nth_error_app2 by lia. replace (length l1 + 1 + length l2 + 1 + length l3 - length l1)%nat with (S (length l2 + S (length l3))) by lia. cbn [nth_error].
      rewrite nth_error_app2 by lia. replace (length l2 + S (length l3) - length l2)%nat with (S (length l3)) by lia. cbn [nth_error]. rewrite nth_error_app2, Nat.sub_diag by lia. reflexivity. }
    assert (STEP : forall i j x z, (i < j)%nat -> nth_error edges i = Some x -> nth_error edges j = Some z -> x + 3 * td <= z).
    { intros i j x z IJ NX NZ. pose proof (CL i x NX) as C1. pose proof (CL j z NZ) as C2. apply Rabs_le_between in C1. apply Rabs_le_between in C2. unfold middle in C1, C2.
      assert (IZR (Z.of_nat i) + 1 <= IZR (Z.of_nat j)) by (rewrite <- plus_IZR; apply IZR_le; lia).
      assert (0 < period) by lra. assert ((IZR (Z.of_nat i) + 1) * period <= IZR (Z.of_nat j) * period) by (apply Rmult_le_compat_r; lra). lra. }
    assert (AB : a + 3 * td <= b) by (refine (STEP _ _ _ _ _ NA NB); lia). assert (BC : b + 3 * td <= c) by (refine (STEP _ _ _ _ _ NB NC); lia).
    destruct (KP a (nth_error_In _ _ NA)) as [_ WA]. destruct (KP c (nth_error_In _ _ NC)) as [_ WC]. destruct (WA KA) as [WA1 _]. destruct (WC KC) as [_ WC2].
    apply (KP b (nth_error_In _ _ NB)). unfold well_inside. lra. }
  rewrite FM in U. exists (length pre, length mid). cbn [fst snd].
  split; [|].
  - split; [cbn [fst snd]; rewrite EE, !app_length; lia|]. exists first. split; [exact F0|]. intros i b NB. cbv zeta. cbn [fst snd] in *  . fold last. destruct (KP b (nth_error_In _ _ NB)) as [K1 K2].
    assert (KI : (length pre <= i < length pre + length mid)%nat <-> keep b = true).
    { rewrite EE in NB. split.
      - intros [I1 I2]. rewrite nth_error_app2, nth_error_app1 in NB by lia. rewrite Forall_forall in MT. apply MT. exact (nth_error_In _ _ NB).
      - intro KB. destruct (Nat.lt_ge_cases i (length pre)) as [I|I].
        + rewrite nth_error_app1 in NB by exact I. rewrite Forall_forall in PF. rewrite (PF _ (nth_error_In _ _ NB)) in KB. discriminate.
        + destruct (Nat.lt_ge_cases i (length pre + length mid)) as [I'|I']; [split; assumption|].
          rewrite nth_error_app2, nth_error_app2 in NB by lia. rewrite Forall_forall in QF. rewrite (QF _ (nth_error_In _ _ NB)) in KB. discriminate. }
    split; [intro W; apply KI, K1, W|intro I; apply K2, KI, I].
  - assert (LP : length pd = length mid) by (rewrite <- (map_length fst pd), EP, map_length, <- U, map_length; reflexivity).
    assert (EACH : forall i q, nth_error pd i = Some q -> exists b, Rabs (b - middle period s (Z.of_nat (length pre + i))) <= jitter /\ seen t td first b y (fst q)).
    { intros i q NQ. assert (NS : nth_error (map snd syms) i = Some (fst q)) by (rewrite <- EP, nth_error_map, NQ; reflexivity).
      rewrite nth_error_map in NS. destruct (nth_error syms i) as [sy|] eqn:NY; [|discriminate NS]. cbn [option_map] in NS. injection NS as NS. exists (fst sy). split.
      - apply CL. rewrite EE, nth_slice; rewrite <- U, nth_error_map, NY; [reflexivity|discriminate].
      - rewrite <- NS. rewrite Forall_forall in SE. exact (SE _ (nth_error_In _ _ NY)). }
    split.
    + apply list_nth_eq; [unfold numbers; cbn [fst snd]; rewrite !map_length, seq_length; exact LP|]. intros i I. rewrite map_length in I. rewrite nth_error_map. unfold numbers. cbn [fst snd]. rewrite !nth_error_map.
      rewrite (nth_error_nth' _ 0%nat) by (rewrite seq_length; lia). rewrite seq_nth by lia. cbn [option_map].
      destruct (nth_error pd i) as [q|] eqn:NQ; [|apply nth_error_None in NQ; lia]. cbn [option_map]. f_equal. destruct (EACH i q NQ) as (b & J & SN). destruct q as [ps dec]. cbn [fst snd] in *  .
      rewrite Forall_forall in DE. exact (symbol_decided k t period near jitter td first w T NEAR half y s b _ ps dec H CA J SN (DE _ (nth_error_In _ _ NQ))).
    + intros w' W. apply Forall_forall. intros q IQ. destruct (In_nth_error _ _ IQ) as (i & NQ). destruct (EACH i q NQ) as (b & J & SN). destruct q as [ps dec]. cbn [fst snd] in *  .
      rewrite Forall_forall in DE. rewrite (symbol_decided k t period near jitter td first w T NEAR half y s b _ ps dec H CA J SN (DE _ IQ)). unfold pattern, cur. cbn [fst snd].
      pose proof (seen_shows k t period near jitter td first w T NEAR y s b _ ps 0 CA J SN ltac:(lia) w' W) as S2. replace (1 / 2 + 0) with (1 / 2) in S2 by lra. rewrite Z.add_0_r in S2. exact S2.
Qed.

(** ** All records *)
Lemma records_data k t period near jitter td w half records sent : 0 < t -> 0 < td -> low_to k <= half < high_from k ->
  jitter + td / 2 + Rabs (t - period) + w * t / 2 <= near -> 3 * td + 2 * jitter < period ->
  forall syms pds, Forall2 (record_of k period near jitter td) records sent -> Forall2 (record_symbols t td) records syms ->
  map (map fst) pds = map (map snd) syms -> Forall (decided half w) (concat pds) ->
  exists parts, Forall2 (whole_part t td) records parts /\ map (map snd) pds = map patterns (combine sent parts)
    /\ length parts = length sent
    /\ forall w', w' <= w -> Forall (fun q => Forall (shows k (cur (snd q))) (values_in (1 / 2) w' (fst q))) (concat pds).
Proof.
  intros T TD H NEAR GAP syms pds RO. revert syms pds. induction RO as [|record s records sent RO ROS IH]; intros syms pds RS EP DE.
  - inversion RS; subst. destruct pds; [|discriminate EP]. exists []. repeat split; constructor.
  - inversion RS as [|? sy ? sys R1 R2]; subst. destruct pds as [|pd pds]; [discriminate EP|]. cbn [map concat] in EP, DE. injection EP as EP1 EP2. apply Forall_app in DE. destruct DE as [DE1 DE2].
    destruct (record_data k t period near jitter td w half record s sy pd T TD H NEAR GAP RO R1 EP1 DE1) as (part & W1 & M1 & B1).
    destruct (IH sys pds R2 EP2 DE2) as (parts & W2 & M2 & L2 & B2). exists (part :: parts). split; [constructor; assumption|].
    split; [cbn [map combine fst snd]; rewrite M1, M2; reflexivity|]. split; [cbn [length]; rewrite L2; reflexivity|].
    intros w' W. cbn [concat]. apply Forall_app. split; [apply B1|apply B2]; exact W.
Qed.
Lemma values_at_shows k width keep bit (l : list (list (R * R) * decision)) :
  (forall dec, keep dec = true -> cur dec = bit) -> Forall (fun q => Forall (shows k (cur (snd q))) (values_in (1 / 2) width (fst q))) l ->
  Forall (shows k bit) (values_at (1 / 2) width keep l).
Proof.
  intros K F. apply Forall_forall. intros v I. unfold values_at in I. apply in_flat_map in I. destruct I as (q & I & V). apply filter_In in I. destruct I as [I KQ].
  rewrite Forall_forall in F. specialize (F q I). rewrite Forall_forall in F. rewrite <- (K _ KQ). exact (F v V).
Qed.
Lemma usamples_mean l u : usamples l = Some u -> l <> [] /\ value u = Pam2Spec.mean l.
Proof. destruct l as [|x l]; [discriminate|]. intro E. split; [discriminate|]. unfold usamples in E. injection E as <-. reflexivity. Qed.
Lemma chained_patterns s (from n : nat) : chained (map (pattern s) (map Z.of_nat (seq from n))).
Proof.
  intros l a b l' E. rewrite map_map in E.
  assert (G : forall i x, nth_error (map (fun j => pattern s (Z.of_nat j)) (seq from n)) i = Some x -> x = pattern s (Z.of_nat (from + i))).
  { intros i x N. rewrite nth_error_map in N. destruct (nth_error (seq from n) i) as [j|] eqn:J; [|discriminate N]. cbn [option_map] in N. injection N as <-.
    assert (L : (i < n)%nat) by (rewrite <- (seq_length n from); apply nth_error_Some; congruence). rewrite (nth_error_nth' _ 0%nat), seq_nth in J by (rewrite ?seq_length; exact L). injection J as <-. reflexivity. }
  rewrite E in G. assert (A : a = pattern s (Z.of_nat (from + length l))) by (apply G; rewrite nth_error_app2, Nat.sub_diag by lia; reflexivity).
  assert (B : b = pattern s (Z.of_nat (from + S (length l)))) by (apply G; rewrite nth_error_app2 by lia; replace (S (length l) - length l)%nat with 1%nat by lia; reflexivity).
  rewrite A, B. unfold pattern, prev, cur. cbn [fst snd]. f_equal. lia.
Qed.

(** A window sees every crossing. *)
Lemma seen_crossing t td first b y ps cw : 0 < t -> 0 < td -> td <= cw * t -> cw <= 1 -> seen t td first b y ps -> values_in 0 cw ps <> [].
Proof.
  intros T TD CW C1 (b' & lo & n & _ & _ & _ & LO & HI & ->) N.
  set (x := b' - t / 2 - cw * t / 2) in *  . set (j := up ((x - first) / td)) in *  . destruct (archimed ((x - first) / td)) as [U1 U2]. fold j in U1, U2.
  assert (EX : (x - first) / td * td = x - first) by (field; lra). set (q := (x - first) / td) in *  .
  assert (CT : cw * t <= t) by nra. assert (J1 : x < first + IZR j * td) by nra. assert (J2 : first + IZR j * td <= x + td) by nra.
  assert (JL : (Z.of_nat lo < j)%Z) by (apply lt_IZR; rewrite <- INR_IZR_INZ; unfold x in J1; nra).
  assert (JH : (j < Z.of_nat (lo + n))%Z).
  { apply lt_IZR. rewrite <- INR_IZR_INZ. unfold x in J2. assert (first + IZR j * td <= first + (INR (lo + n) - 1) * td) by lra. nra. }
  assert (I : In (nth (Z.to_nat j) y 0) (values_in 0 cw (view t td first b' y lo n))); [|rewrite N in I; destruct I].
  unfold values_in. apply in_map_iff. exists (1 / 2 + (first + INR (Z.to_nat j) * td - b') / t, nth (Z.to_nat j) y 0). split; [reflexivity|].
  apply filter_In. split; [unfold view; apply in_map_iff; exists (Z.to_nat j); split; [reflexivity|apply in_seq; lia]|]. cbn [fst].
  rewrite INR_IZR_INZ, Z2Nat.id by lia. set (tau := first + IZR j * td) in *  . assert (ET : (tau - b') / t * t = tau - b') by (field; lra). set (r := (tau - b') / t) in *  . unfold x in J1, J2.
  apply andb_true_iff. split; apply Rleb_true; nra.
Qed.
Lemma seen_any t td records syms (pds : list (list (list (R * R) * decision))) : Forall2 (record_symbols t td) records syms -> map (map fst) pds = map (map snd) syms ->
  forall q, In q (concat pds) -> exists record first b, seen t td first b (snd (fst record)) (fst q) /\ In record records.
Proof.
  intro RS. revert pds. induction RS as [|record sy records syms (first & _ & _ & SE) RS IH]; intros pds EP q I; [destruct pds; [destruct I|discriminate EP]|].
  destruct pds as [|pd pds]; [discriminate EP|]. cbn [map concat] in EP, I. injection EP as E1 E2. apply in_app_or in I. destruct I as [I|I].
  - assert (IS : In (fst q) (map snd sy)) by (rewrite <- E1; apply in_map; exact I). apply in_map_iff in IS. destruct IS as (s & <- & IS). rewrite Forall_forall in SE.
    exists record, first, (fst s). split; [exact (SE s IS)|left; reflexivity].
  - destruct (IH pds E2 q I) as (r & f & b & S & IR). exists r, f, b. split; [exact S|right; exact IR].
Qed.
Lemma part_has t td records sent parts (P : decision -> Prop) : Forall2 (whole_part t td) records parts -> length parts = length sent -> has_symbol t td records sent P ->
  exists p, P p /\ In p (concat (map patterns (combine sent parts))).
Proof.
  intros WP. revert sent. induction WP as [|record part records parts W WP IH]; intros sent L (r & s & first & i & b & I & F0 & NB & WI & PP); [destruct I|].
  destruct sent as [|s0 sent]; [discriminate L|]. cbn [combine map concat] in I |- * . destruct I as [I|I].
  - apply pair_equal_spec in I. destruct I as [-> ->]. destruct W as (_ & first' & F0' & W). assert (first' = first) as -> by congruence. destruct (W i b NB) as [W1 _]. cbv zeta in W1. specialize (W1 WI).
    exists (pattern s (Z.of_nat i)). split; [exact PP|]. apply in_or_app. left. unfold patterns, numbers. cbn [fst snd]. apply in_map, in_map, in_seq. exact W1.
  - destruct (IH sent) as (p & PP' & IP); [cbn in L; lia|exists r, s, first, i, b; exact (conj I (conj F0 (conj NB (conj WI PP))))|]. exists p. split; [exact PP'|]. apply in_or_app. right. exact IP.
Qed.

(** The amplitude that units are converted with, for a mean low and a mean high
    level, as far as levels are not configured. *)
Definition amplitude (c : config) (low high : R) : R :=
  match c_y_1 c with Some v => v - (match c_y_0 c with Some v => v | None => low end) | None => high - low end.
(** There is no mask, or one that can be converted to all amplitudes and symbol
    periods that such a signal may have and be made larger or smaller, drawn by a
    library whose coverages are fractions. *)
Definition usable_mask (draw : drawing) (k : bands) (period dev : R) (e : eye) : Prop :=
  (e_mask e = None /\ e_converted e = None)
  \/ exists mk, e_mask e = Some mk /\ EyeImageSpec.fair (line_aa draw)
     /\ forall low high t, low_from k <= low <= low_to k -> high_from k <= high <= high_to k -> Rabs (t - period) <= dev ->
          exists mc, EyeModel.mask_convert mk (amplitude (e_config e) low high) t = Ok mc /\ EyeImageProps.adjustable mc.
Lemma usable_less draw k period dev d e : d <= dev -> usable_mask draw k period dev e -> usable_mask draw k period d e.
Proof. intros L [H|(mk & MK & FA & CV)]; [left; exact H|]. right. exists mk. split; [exact MK|]. split; [exact FA|]. intros low high t A B C. apply (CV low high t A B). lra. Qed.

Section Data.
Variable round6 : R -> R.
Variable fit : nat -> list R -> result (list (R * R * R)).
Variable aic : list (R * R * R) -> list R -> R.
Variable new_cdr : R -> cdr.
Variable percentile : list R -> R -> R.
Variable cast : R -> Z.
Variable fuel : nat.
Variable draw : drawing.
Let find_levels := find_levels round6 fit aic.
Let completed := completed round6 fit aic new_cdr percentile cast fuel draw.

(** A completed eye diagram of records of sent signals.  The threshold separates
    the values of the bits, the clock edges are near the middles of successive
    symbols, there are more than three samples per symbol, and the bits show for
    long enough around the middles.  Then the bits reported are those sent, over
    all symbols inside the records; the transitions are counted as sent; and the
    levels are within the values of the bits. *)
Theorem C67_data d e m e1 edges t l k period near jitter sent : completed d e m e1 edges t -> c_skip_measures (e_config e) = false -> width e t < 1 ->
  find_levels (e_config e) (all_samples (e_waveforms e)) d = Ok l -> low_to k <= l_half l < high_from k ->
  3 * e_t_delta e + 2 * jitter < period -> jitter + e_t_delta e / 2 + Rabs (t - period) + width e t * t / 2 <= near ->
  Forall2 (record_of k period near jitter (e_t_delta e)) (combine (waves (e_waveforms e)) edges) sent ->
  exists parts, Forall2 (whole_part t (e_t_delta e)) (combine (waves (e_waveforms e)) edges) parts
    /\ n_sym m = Z.of_nat (length (concat (map numbers parts)))
    /\ (forall q, transition_dist m q = Z.of_nat (count_occ decision_dec (concat (map patterns (combine sent parts))) q))
    /\ bit_stream e1 true = Ok (map sent_changes (combine sent parts))
    /\ (Forall changes (combine sent parts) -> bit_stream e1 false = Ok (map sent_bits (combine sent parts)))
    /\ exists my u0 u1 ua, in_y m = Some my /\ m_y_0 my = Some u0 /\ m_y_1 my = Some u1 /\ m_amp my = Some ua
         /\ low_from k <= value u0 <= low_to k /\ high_from k <= value u1 <= high_to k /\ value ua = value u1 - value u0.
Proof.
  intros CO SK WD FL HALF GAP NEAR RO.
  destruct (C58_decisions round6 fit aic new_cdr percentile cast fuel draw d e m e1 edges t CO SK WD) as (l' & syms & pds & FL' & RS & EP & DE & TR & BT & BF & my & IY & Y0 & Y1 & _ & _ & _ & _ & AM & N0 & N1 & _).
  assert (l' = l) as -> by (unfold find_levels in FL; congruence).
  destruct (C58_transitions round6 fit aic new_cdr percentile cast fuel draw d e m e1 edges t CO SK WD) as (SUM & _).
  pose proof CO as (_ & _ & PP & SP & TD). pose proof (period_pos edges t PP SP) as T.
  destruct (records_data k t period near jitter (e_t_delta e) (width e t) (l_half l) _ sent T TD HALF NEAR GAP syms pds RO RS EP DE) as (parts & WP & MP & LP & BA).
  exists parts. split; [exact WP|].
  assert (CP : map snd (concat pds) = concat (map patterns (combine sent parts))) by (rewrite concat_map, MP; reflexivity).
  split; [|split; [|split; [|split]]].
  - rewrite <- SUM. rewrite (map_ext (transition_dist m) _ TR). rewrite count_all. f_equal. rewrite CP. clear - LP. revert sent LP. induction parts as [|p parts IH]; intros [|s sent] LP; try discriminate; [reflexivity|].
    cbn [combine map concat]. rewrite !app_length. unfold patterns at 1. cbn [fst snd]. rewrite map_length. f_equal. apply IH. cbn in LP. lia.
  - intro q. rewrite TR, CP. reflexivity.
  - rewrite BT. f_equal.
    transitivity (map (map (fun dec : decision => if xorb (prev dec) (cur dec) then 1 else 0)%Z) (map (map snd) pds)); [rewrite map_map; apply map_ext; intro; rewrite map_map; reflexivity|].
    rewrite MP, map_map. apply map_ext. intro sp. unfold patterns. rewrite map_map. reflexivity.
  - intro TRANS. rewrite BF.
    + f_equal. transitivity (map (map (fun dec : decision => if cur dec then 1 else 0)%Z) (map (map snd) pds)); [rewrite map_map; apply map_ext; intro; rewrite map_map; reflexivity|].
      rewrite MP, map_map. apply map_ext. intro sp. unfold patterns. rewrite map_map. reflexivity.
    + intros pd I. assert (IM : In (map snd pd) (map (map snd) pds)) by (apply in_map; exact I). rewrite MP in IM. apply in_map_iff in IM. destruct IM as ([s p] & EQ & ISP). unfold patterns in EQ. cbn [fst snd] in EQ. rewrite <- EQ.
      split; [apply chained_patterns|]. rewrite Forall_forall in TRANS. destruct (TRANS _ ISP) as (n & IN & NE). cbn [fst snd] in IN, NE. assert (IP : In (pattern s n) (map snd pd)) by (rewrite <- EQ; apply in_map; exact IN).
      apply in_map_iff in IP. destruct IP as (q & EQ' & IQ). exists q. split; [exact IQ|]. rewrite EQ'. exact NE.
  - assert (LW : c_level_width (e_config e) <= width e t) by (unfold width; apply Rmax_l). specialize (BA _ LW).
    destruct (m_y_0 my) as [u0|] eqn:E0; [|congruence]. destruct (m_y_1 my) as [u1|] eqn:E1; [|congruence].
    cbn [lift2] in AM. exists my, u0, u1, (usub u1 (OU u0)). split; [exact IY|]. split; [exact E0|]. split; [exact E1|]. split; [exact AM|].
    symmetry in Y0, Y1. destruct (usamples_mean _ _ Y0) as [NE0 V0]. destruct (usamples_mean _ _ Y1) as [NE1 V1].
    pose proof (values_at_shows k _ (fun dec => negb (cur dec)) false (concat pds) ltac:(intros dec H; apply negb_true_iff in H; exact H) BA) as S0.
    pose proof (values_at_shows k _ cur true (concat pds) ltac:(intros dec H; exact H) BA) as S1.
    split; [rewrite V0; exact (mean_band _ _ _ NE0 S0)|]. split; [rewrite V1; exact (mean_band _ _ _ NE1 S1)|]. reflexivity.
Qed.
Lemma unmasked_calculated e l edges t k period near jitter sent : find_levels (e_config e) (all_samples (e_waveforms e)) false = Ok l -> low_to k <= l_half l < high_from k ->
  e_clock_edges e = Some edges -> symbol_period edges = Ok (Some t) -> (forall p, is_period edges p -> 0 < p) -> 0 < e_t_delta e ->
  (length (waves (e_waveforms e)) <= length edges)%nat -> (forall w, In w (waves (e_waveforms e)) -> fst w <> []) ->
  e_mask e = None -> e_converted e = None -> (1 <= e_resolution e)%Z -> c_point_cloud (e_config e) = true -> c_skip_measures (e_config e) = false ->
  - (1 / 2) <= c_edge_lower (e_config e) < 3 / 2 -> - (1 / 2) <= c_edge_upper (e_config e) < 3 / 2 ->
  101 / 100 * e_t_delta e / t <= c_level_width (e_config e) < 1 -> e_t_delta e <= c_cross_width (e_config e) * t -> c_cross_width (e_config e) <= 1 ->
  3 * e_t_delta e + 2 * jitter < period -> jitter + e_t_delta e / 2 + Rabs (t - period) + c_level_width (e_config e) * t / 2 <= near ->
  let records := combine (waves (e_waveforms e)) edges in
  Forall2 (record_of k period near jitter (e_t_delta e)) records sent ->
  has_symbol t (e_t_delta e) records sent (fun p => cur p = true) -> has_symbol t (e_t_delta e) records sent (fun p => cur p = false) ->
  has_symbol t (e_t_delta e) records sent (fun p => prev p <> cur p) ->
  exists m e1, completed false e m e1 edges t /\ width e t = c_level_width (e_config e).
Proof.
  intros FL HALF CE SP PP TD LE NE MK MC RS PC SK EL EU LW CW CW1 GAP NEAR records RO H1 H0 HX. pose proof (period_pos edges t PP SP) as T.
  assert (WD : width e t = c_level_width (e_config e)) by (unfold width; apply Rmax_left; lra).
  destruct (C58_finishes round6 fit aic new_cdr percentile cast fuel draw e l edges t FL CE SP PP TD LE NE MK MC RS PC SK EL EU ltac:(lra)) as (syms & pds & RSY & EP & DE & GO). rewrite WD in DE.
  destruct (records_data k t period near jitter (e_t_delta e) _ (l_half l) _ sent T TD HALF NEAR GAP syms pds RO RSY EP DE) as (parts & WP & MP & LP & _).
  assert (FIND : forall P, has_symbol t (e_t_delta e) records sent P -> exists q, In q (concat pds) /\ P (snd q)).
  { intros P HS. destruct (part_has t _ records sent parts P WP LP HS) as (p & PP' & I). rewrite <- MP, <- concat_map in I. apply in_map_iff in I. destruct I as (q & <- & I). exists q. split; assumption. }
  destruct (FIND _ H1) as (q1 & I1 & C1). destruct (FIND _ H0) as (q0 & I0 & C0). destruct (FIND _ HX) as (qx & IX & CX). rewrite Forall_forall in DE.
  destruct GO as (m & e1 & CO).
  - apply (at_ne _ _ _ _ q0 I0); [rewrite C0; reflexivity|]. apply (DE q0 I0).
  - apply (at_ne _ _ _ _ q1 I1); [exact C1|]. apply (DE q1 I1).
  - apply (at_ne _ _ _ _ qx IX); [destruct (prev (snd qx)), (cur (snd qx)); try reflexivity; destruct (CX eq_refl)|].
    destruct (seen_any t _ _ syms pds RSY EP qx IX) as (r & f & b & SE & _). exact (seen_crossing _ _ _ _ _ _ _ T TD CW CW1 SE).
  - exists m, e1. split; [exact CO|exact WD].
Qed.
Lemma masked_calculated e l edges t k period near jitter sent mk : find_levels (e_config e) (all_samples (e_waveforms e)) false = Ok l -> low_to k <= l_half l < high_from k ->
  e_clock_edges e = Some edges -> symbol_period edges = Ok (Some t) -> (forall p, is_period edges p -> 0 < p) -> 0 < e_t_delta e ->
  (length (waves (e_waveforms e)) <= length edges)%nat -> (forall w, In w (waves (e_waveforms e)) -> fst w <> []) ->
  e_mask e = Some mk -> (forall low high, low_from k <= low <= low_to k -> high_from k <= high <= high_to k -> exists mc, EyeModel.mask_convert mk (amplitude (e_config e) low high) t = Ok mc /\ EyeImageProps.adjustable mc) -> EyeImageSpec.fair (line_aa draw) ->
  (1 <= e_resolution e)%Z -> c_point_cloud (e_config e) = true -> c_skip_measures (e_config e) = false ->
  - (1 / 2) <= c_edge_lower (e_config e) < 3 / 2 -> - (1 / 2) <= c_edge_upper (e_config e) < 3 / 2 ->
  101 / 100 * e_t_delta e / t <= c_level_width (e_config e) < 1 -> e_t_delta e <= c_cross_width (e_config e) * t -> c_cross_width (e_config e) <= 1 ->
  3 * e_t_delta e + 2 * jitter < period -> jitter + e_t_delta e / 2 + Rabs (t - period) + c_level_width (e_config e) * t / 2 <= near ->
  let records := combine (waves (e_waveforms e)) edges in
  Forall2 (record_of k period near jitter (e_t_delta e)) records sent ->
  has_symbol t (e_t_delta e) records sent (fun p => cur p = true) -> has_symbol t (e_t_delta e) records sent (fun p => cur p = false) ->
  has_symbol t (e_t_delta e) records sent (fun p => prev p <> cur p) ->
  exists m e1, completed false e m e1 edges t /\ width e t = c_level_width (e_config e).
Proof.
  intros FL HALF CE SP PP TD LE NE MK MC FA RS PC SK EL EU LW CW CW1 GAP NEAR records RO H1 H0 HX. pose proof (period_pos edges t PP SP) as T.
  assert (WD : width e t = c_level_width (e_config e)) by (unfold width; apply Rmax_left; lra).
  destruct (EyeImageProps.C62_finishes round6 fit aic new_cdr percentile cast fuel draw e l edges t mk FL CE SP PP TD LE NE MK FA RS PC SK EL EU ltac:(lra)) as (syms & pds & RSY & EP & DE & GO). rewrite WD in DE.
  destruct (records_data k t period near jitter (e_t_delta e) _ (l_half l) _ sent T TD HALF NEAR GAP syms pds RO RSY EP DE) as (parts & WP & MP & LP & BA).
  assert (FIND : forall P, has_symbol t (e_t_delta e) records sent P -> exists q, In q (concat pds) /\ P (snd q)).
  { intros P HS. destruct (part_has t _ records sent parts P WP LP HS) as (p & PP' & I). rewrite <- MP, <- concat_map in I. apply in_map_iff in I. destruct I as (q & <- & I). exists q. split; assumption. }
  destruct (FIND _ H1) as (q1 & I1 & C1). destruct (FIND _ H0) as (q0 & I0 & C0). destruct (FIND _ HX) as (qx & IX & CX). rewrite Forall_forall in DE.
  assert (NE0 : values_at (1 / 2) (c_level_width (e_config e)) (fun d => negb (cur d)) (concat pds) <> []) by (apply (at_ne _ _ _ _ q0 I0); [rewrite C0; reflexivity|apply (DE q0 I0)]).
  assert (NE1 : values_at (1 / 2) (c_level_width (e_config e)) cur (concat pds) <> []) by (apply (at_ne _ _ _ _ q1 I1); [exact C1|apply (DE q1 I1)]).
  destruct GO as (m & e1 & CO); [exact NE0|exact NE1| | |].
  - apply (at_ne _ _ _ _ qx IX); [destruct (prev (snd qx)), (cur (snd qx)); try reflexivity; destruct (CX eq_refl)|].
    destruct (seen_any t _ _ syms pds RSY EP qx IX) as (r & f & b & SE & _). exact (seen_crossing _ _ _ _ _ _ _ T TD CW CW1 SE).
  - specialize (BA _ (Rle_refl _)). apply (MC (Pam2Spec.mean _) (Pam2Spec.mean _)).
    + exact (mean_band _ _ _ NE0 (values_at_shows k _ (fun dec => negb (cur dec)) false (concat pds) ltac:(intros dec H; apply negb_true_iff in H; exact H) BA)).
    + exact (mean_band _ _ _ NE1 (values_at_shows k _ cur true (concat pds) ltac:(intros dec H; exact H) BA)).
  - exists m, e1. split; [exact CO|exact WD].
Qed.
(** ... and with its clock given, both bits and a change in sight and enough
    samples, the calculation does complete, also with a mask. *)
Theorem C67_calculated e l edges t k period near jitter sent : find_levels (e_config e) (all_samples (e_waveforms e)) false = Ok l -> low_to k <= l_half l < high_from k ->
  e_clock_edges e = Some edges -> symbol_period edges = Ok (Some t) -> (forall p, is_period edges p -> 0 < p) -> 0 < e_t_delta e ->
  (length (waves (e_waveforms e)) <= length edges)%nat -> (forall w, In w (waves (e_waveforms e)) -> fst w <> []) ->
  usable_mask draw k period (Rabs (t - period)) e -> (1 <= e_resolution e)%Z -> c_point_cloud (e_config e) = true -> c_skip_measures (e_config e) = false ->
  - (1 / 2) <= c_edge_lower (e_config e) < 3 / 2 -> - (1 / 2) <= c_edge_upper (e_config e) < 3 / 2 ->
  101 / 100 * e_t_delta e / t <= c_level_width (e_config e) < 1 -> e_t_delta e <= c_cross_width (e_config e) * t -> c_cross_width (e_config e) <= 1 ->
  3 * e_t_delta e + 2 * jitter < period -> jitter + e_t_delta e / 2 + Rabs (t - period) + c_level_width (e_config e) * t / 2 <= near ->
  let records := combine (waves (e_waveforms e)) edges in
  Forall2 (record_of k period near jitter (e_t_delta e)) records sent ->
  has_symbol t (e_t_delta e) records sent (fun p => cur p = true) -> has_symbol t (e_t_delta e) records sent (fun p => cur p = false) ->
  has_symbol t (e_t_delta e) records sent (fun p => prev p <> cur p) ->
  exists m e1, completed false e m e1 edges t /\ width e t = c_level_width (e_config e).
Proof.
  intros FL HALF CE SP PP TD LE NE [(MK & MC)|(mk & MK & FA & CV)].
  - exact (unmasked_calculated e l edges t k period near jitter sent FL HALF CE SP PP TD LE NE MK MC).
  - exact (masked_calculated e l edges t k period near jitter sent mk FL HALF CE SP PP TD LE NE MK (fun low high A B => CV low high t A B (Rle_refl _)) FA).
Qed.
End Data.
Print Assumptions C67_data.
Print Assumptions C67_calculated.

(** ** A concrete case: the waveform of C58_witness carries 1 0 1 0. *)
Definition bits_config' : config :=
  Config None (1 / 10) (Some 10000) RISING None 1 false (3 / 10) (3 / 10) (5 / 100) (2 / 10) (8 / 10) 0 true (Some 0) (Some 1) None.
Definition bits_signal : signal := (8, Z.even).
Example C67_met round6 fit aic new_cdr percentile cast fuel draw : exists e0 m e1,
  construct bits_wave None (Some (ListOf [(true, bits_clock)])) None 10 (Some (Some bits_config')) = Ok e0
  /\ Forall2 (record_of (Bands 0 0 1 1) 4 (3 / 2) 0 (e_t_delta e0)) (combine (waves (e_waveforms e0)) [bits_clock]) [bits_signal]
  /\ completed round6 fit aic new_cdr percentile cast fuel draw false e0 m e1 [bits_clock] 4 /\ bit_stream e1 false = Ok [[1; 0; 1; 0]%Z].
Proof.
  destruct (construct bits_wave None (Some (ListOf [(true, bits_clock)])) None 10 (Some (Some bits_config'))) as [e0|] eqn:C; [|discriminate].
  assert (TD : e_t_delta e0 = 1). { injection C as <-. change ((INR 27 - INR 0) / INR 27 = 1). rewrite (INR_IZR_INZ 27), (INR_IZR_INZ 0). cbn [Z.of_nat Pos.of_succ_nat Pos.succ]. lra. }
  assert (WV : waves (e_waveforms e0) = [(bits_t, bits_y)]) by (injection C as <-; reflexivity).
  assert (CF : e_config e0 = bits_config') by (injection C as <-; reflexivity). assert (CE : e_clock_edges e0 = Some [bits_clock]) by (injection C as <-; reflexivity).
  assert (MK : e_mask e0 = None) by (injection C as <-; reflexivity). assert (MC : e_converted e0 = None) by (injection C as <-; reflexivity). assert (RS : e_resolution e0 = 10%Z) by (injection C as <-; reflexivity). clear C.
  assert (PP : forall p, is_period [bits_clock] p -> 0 < p). { intros p (l & [<-|[]] & k & a & b & A & B & ->). unfold bits_clock in A, B. destruct k as [|[|[|k]]]; cbn in A, B; [injection A as <-; injection B as <-; lra..|destruct k as [|k]; [discriminate|destruct k; discriminate]]. }
  assert (FL : exists l, find_levels round6 fit aic (e_config e0) (all_samples (e_waveforms e0)) false = Ok l /\ l_half l = 1 / 2) by (rewrite CF; eexists; split; [reflexivity|]; cbn; lra). destruct FL as (l & FL & LH).
  assert (RO : Forall2 (record_of (Bands 0 0 1 1) 4 (3 / 2) 0 (e_t_delta e0)) (combine (waves (e_waveforms e0)) [bits_clock]) [bits_signal]).
  { rewrite WV, TD. cbn [combine]. constructor; [|constructor]. split; cbn [fst snd].
    - intros first F0. assert (first = 0) as -> by (cbn in F0; congruence). intros j n J NEAR. unfold middle, bits_signal in NEAR. cbn [fst] in NEAR. apply Rabs_le_between in NEAR.
      rewrite INR_IZR_INZ in NEAR. assert (NZ : (- 2 < Z.of_nat j - 8 - 4 * n < 2)%Z).
      { split; apply lt_IZR; rewrite ?opp_IZR, ?minus_IZR, ?mult_IZR; lra. }
      change (length bits_y) with 28%nat in J. unfold bits_signal. cbn [snd].
      assert (VY : nth j bits_y 0 = match (j mod 8)%nat with 0%nat | 1%nat | 7%nat => 1 | 2%nat | 6%nat => 1 / 2 | _ => 0 end).
      { apply nth_error_nth. unfold bits_y. rewrite nth_error_map, (nth_error_nth' _ 0%nat) by (rewrite seq_length; exact J). rewrite seq_nth by exact J. reflexivity. }
      assert (MJ : (Z.of_nat (j mod 8) = Z.of_nat j mod 8)%Z) by (rewrite Nat2Z.inj_mod; reflexivity).
      assert (EN : (n = 2 * (n / 2) + n mod 2)%Z) by (apply Z.div_mod; lia). pose proof (Z.mod_pos_bound n 2 ltac:(lia)) as MB. rewrite Zmod_even in EN, MB.
      assert (DJ : (Z.of_nat j = 8 * (Z.of_nat j / 8) + Z.of_nat j mod 8)%Z) by (apply Z.div_mod; lia). pose proof (Z.mod_pos_bound (Z.of_nat j) 8 ltac:(lia)) as MJB.
      unfold shows. cbn [low_from low_to high_from high_to]. rewrite VY. set (q := (j mod 8)%nat) in *  .
      destruct (Z.even n).
      + assert (Q : (q = 7 \/ q = 0 \/ q = 1)%nat) by lia. destruct Q as [-> | [-> | ->]]; lra.
      + assert (Q : (q = 3 \/ q = 4 \/ q = 5)%nat) by lia. destruct Q as [-> | [-> | ->]]; lra.
    - intros i b NB. unfold bits_clock in NB. unfold middle, bits_signal. cbn [fst]. apply Rabs_le. destruct i as [|[|[|[|i]]]]; cbn in NB; [injection NB as <-; cbn [Z.of_nat Pos.of_succ_nat Pos.succ]; lra..|destruct i; discriminate]. }
  assert (END : end_time 1 0 28 = 27) by (unfold end_time; rewrite INR_IZR_INZ; cbn [Z.of_nat Pos.of_succ_nat Pos.succ]; lra).
  assert (HS : forall (P : decision -> Prop) i b, nth_error bits_clock i = Some b -> 8 <= b <= 20 -> P (pattern bits_signal (Z.of_nat i)) -> has_symbol 4 (e_t_delta e0) (combine (waves (e_waveforms e0)) [bits_clock]) [bits_signal] P).
  { intros P i b NB B HP. rewrite WV, TD. exists (bits_t, bits_y, bits_clock), bits_signal, 0, i, b. split; [left; reflexivity|]. split; [reflexivity|]. split; [exact NB|]. split; [|exact HP].
    cbn [fst snd]. change (length bits_t) with 28%nat. rewrite END. unfold well_inside. lra. }
  destruct (C67_calculated round6 fit aic new_cdr percentile cast fuel draw e0 l [bits_clock] 4 (Bands 0 0 1 1) 4 (3 / 2) 0 [bits_signal] FL) as (m & e1 & CO & WD);
    [cbn [low_to high_from]; rewrite LH; lra|exact CE|exact bits_period|exact PP|rewrite TD; lra|rewrite WV; cbn; lia|rewrite WV; intros w [<-|[]]; discriminate|left; split; [exact MK|exact MC]|rewrite RS; lia|rewrite CF; reflexivity|
     rewrite CF; reflexivity|rewrite CF; cbn; lra|rewrite CF; cbn; lra|rewrite CF, TD; cbn; lra|rewrite CF, TD; cbn; lra|rewrite CF; cbn; lra|rewrite TD; lra|rewrite CF, TD; cbn [c_level_width bits_config']; replace (4 - 4) with 0 by lra; rewrite Rabs_R0; lra|exact RO| | | |].
  1: refine (HS _ 0%nat 8 eq_refl ltac:(lra) _); reflexivity.
  1: refine (HS _ 1%nat 12 eq_refl ltac:(lra) _); reflexivity.
  1: refine (HS _ 1%nat 12 eq_refl ltac:(lra) _); discriminate.
  exists e0, m, e1. split; [reflexivity|]. split; [exact RO|]. split; [exact CO|].
  destruct (C67_data round6 fit aic new_cdr percentile cast fuel draw false e0 m e1 [bits_clock] 4 l (Bands 0 0 1 1) 4 (3 / 2) 0 [bits_signal] CO) as (parts & WP & _ & _ & _ & BS & _);
    [rewrite CF; reflexivity|rewrite WD, CF; cbn; lra|exact FL|cbn [low_to high_from]; rewrite LH; lra|rewrite TD; lra|rewrite WD, CF, TD; cbn [c_level_width bits_config']; replace (4 - 4) with 0 by lra; rewrite Rabs_R0; lra|exact RO|].
  rewrite WV, TD in WP. cbn [combine] in WP. inversion WP as [|? part ? parts' (LP & first & F0 & W) WP' X1 X2]; subst. inversion WP'; subst. clear WP WP'. cbn [fst snd] in LP, F0, W.
  assert (first = 0) as -> by (cbn in F0; congruence). change (length bits_t) with 28%nat in W. cbv zeta in W. rewrite END in W. change (length bits_clock) with 4%nat in LP.
  assert (W0 : (fst part <= 0)%nat) by (apply (W 0%nat 8 eq_refl); unfold well_inside; lra). assert (W3 : (3 < fst part + snd part)%nat) by (apply (W 3%nat 20 eq_refl); unfold well_inside; lra).
  destruct part as [from num]. cbn [fst snd] in *  . assert (from = 0%nat) as -> by lia. assert (num = 4%nat) as -> by lia.
  rewrite BS; [reflexivity|]. constructor; [|constructor]. exists 1%Z. split; [right; left; reflexivity|discriminate].
Qed.
