(** Lemmas about where levels are found. *)
From Coq Require Import ZArith Reals Bool List Lia Lra Permutation Sorted.
Import ListNotations.
From Verif Require EyeProofs EyeRunPeriod.
From Verif Require Import Base Num RBool StatsModel StatsSpec StatsProofs UncertainProofs MathModel MathSpec MathProofs GaussProofs GaussProps EyeSpec EyeRProofs EyeRunModel EyeRunSpec EyeLevelsProofs EyeLevelsProps EyeOpenSpec.
Local Open Scope R_scope.
Local Open Scope result_scope.

Lemma ranges_py lo hi y : ranges lo hi y -> py_min y = Ok lo /\ py_max y = Ok hi /\ y <> [].
Proof. intros (L & H & B). split; [apply py_of_min; [exact L|intros v V; apply B; exact V]|]. split; [apply py_of_max; [exact H|intros v V; apply B; exact V]|]. intros ->. destruct L. Qed.
Lemma ranges_ex y : y <> [] -> exists lo hi, ranges lo hi y.
Proof. intros N. destruct (py_min_R y N) as (lo & _ & L & BL). destruct (py_max_R y N) as (hi & _ & H & BH). exists lo, hi. split; [exact L|]. split; [exact H|]. intros v V. split; [apply BL|apply BH]; exact V. Qed.

(** ** The peak of a mixture *)
Lemma peak_between gs lo hi : lo <= hi -> exists x, peak gs lo hi = Ok x /\ lo <= x <= hi.
Proof.
  intros L. remember 1000%nat as n eqn:N. destruct (peak_spec gs lo hi n N) as (x & i & v & E & X & I & _). exists x. split; [exact E|].
  assert (P : 0 < INR (n - 1)) by (apply lt_0_INR; lia). assert (J : INR i <= INR (n - 1)) by (apply le_INR; lia). pose proof (pos_INR i) as I0. clear N E.
  assert (Q : INR i * ((hi - lo) / INR (n - 1)) = INR i / INR (n - 1) * (hi - lo)) by (field; lra). rewrite X, Q.
  assert (0 <= INR i / INR (n - 1) <= 1). { split; [apply Rmult_le_pos; [exact I0|left; apply Rinv_0_lt_compat; exact P]|]. apply (Rmult_le_reg_r _ _ _ P). unfold Rdiv. rewrite Rmult_assoc, Rinv_l by lra. lra. }
  nra.
Qed.
Lemma center_between gs a b : gs <> [] -> (forall g, In g gs -> a <= mean g <= b) -> exists c, center gs = Ok c /\ a - (b - a) / 1000 <= c <= b + (b - a) / 1000.
Proof.
  intros N B. destruct gs as [|g [|h gs]]; [congruence| |].
  - exists (mean g). split; [reflexivity|]. specialize (B g (or_introl eq_refl)). lra.
  - set (l := g :: h :: gs) in *  . change (center l) with (x_min <- py_min (map mean l) ;; x_max <- py_max (map mean l) ;; x <- peak l x_min x_max ;; peak l (x - (x_max - x_min) / 1000) (x + (x_max - x_min) / 1000)).
    destruct (py_min_R (map mean l) ltac:(discriminate)) as (u & -> & U & BU). destruct (py_max_R (map mean l) ltac:(discriminate)) as (v & -> & V & BV). cbn [bind].
    assert (M : forall w, In w (map mean l) -> a <= w <= b) by (intros w W; apply in_map_iff in W; destruct W as (q & <- & Q); apply B; exact Q).
    pose proof (BU v V) as UV. destruct (peak_between l u v UV) as (x & -> & X). cbn [bind]. destruct (peak_between l (x - (v - u) / 1000) (x + (v - u) / 1000)) as (c & E & C); [lra|]. exists c. split; [exact E|]. pose proof (M u U). pose proof (M v V). lra.
Qed.

(** ** Fits *)
Section Fit.
Variable round6 : R -> R.
Variable fit : nat -> list R -> result (list (R * R * R)).
Variable aic : list (R * R * R) -> list R -> R.
Hypothesis AV : averages fit.
Lemma fit_between y gs lo hi : (forall v, In v y -> lo <= v <= hi) -> fit_mix_samples round6 fit aic y 2 = Ok gs -> gs <> [] /\ forall g, In g gs -> lo <= mean g <= hi.
Proof.
  intros B E. destruct (C52_fit round6 fit aic y 2 gs) as (u & v & U & V & BD & [(UV & ->) | (UV & k & m & K & _ & L & F & _ & P & _)]); [intros k l m F; apply (AV k l m F)|exact E| |].
  - split; [discriminate|]. intros g [<-|[]]. cbn. apply B. exact U.
  - split; [intros ->; cbn in L; lia|]. intros g G. apply (Permutation_in _ P) in G. apply in_map_iff in G. destruct G as (c & <- & C). cbn [mean].
    destruct (AV _ _ _ F) as (_ & A). set (avg := total y / INR (length y)) in *  . assert (Q : (u - avg) / (v - u) <= snd (fst c) <= (v - avg) / (v - u)).
    { apply (A c); [exact C|]. intros w W. unfold normalised in W. fold avg in W. apply in_map_iff in W. destruct W as (z & <- & Z). specialize (BD z Z). assert (0 < / (v - u)) by (apply Rinv_0_lt_compat; lra). unfold Rdiv. split; apply Rmult_le_compat_r; lra. }
    assert (E1 : (u - avg) / (v - u) * (v - u) = u - avg) by (field; lra). assert (E2 : (v - avg) / (v - u) * (v - u) = v - avg) by (field; lra). pose proof (B u U). pose proof (B v V). nra.
Qed.
(** A fit that finds every number of components it is asked for. *)
Lemma fit_found y : (forall k l, (1 <= k <= 2)%nat -> l <> [] -> exists m, fit k l = Ok m) -> y <> [] -> exists gs, fit_mix_samples round6 fit aic y 2 = Ok gs.
Proof.
  intros T N. unfold fit_mix_samples. destruct (ranges_ex y N) as (lo & hi & RG). destruct (ranges_py _ _ _ RG) as (-> & -> & _). cbn [bind]. destruct (Reqb (hi - lo) 0); [destruct y as [|v y]; [congruence|]; eexists; reflexivity|].
  set (z := map _ y). set (n := Nat.min 2 _). assert (NP : (1 <= n <= 2)%nat).
  { unfold n. assert (1 <= unique_count (map round6 z))%nat; [|lia]. destruct y as [|v y]; [congruence|]. unfold z. cbn [map]. unfold unique_count. destruct (nodup _ _) eqn:Q; [|cbn; lia]. exfalso. match type of Q with nodup ?d ?l = [] => assert (I : In (hd 0 l) (nodup d l)) by (apply nodup_In; left; reflexivity) end. rewrite Q in I. destruct I. }
  destruct (EyeRunPeriod.mapM_total (fun i => fit (i + 1)%nat z) (seq 0 n)) as (ms & EM); [intros i I; apply in_seq in I; apply T; [lia|unfold z; intros Q; apply map_eq_nil in Q; contradiction]|]. rewrite EM. cbn [bind].
  assert (LM : length ms = n). { rewrite (EyeProofs.mapM_length _ _ _ EM). apply seq_length. }
  assert (NE : map (fun m => aic m z) ms <> []) by (intros Q; apply map_eq_nil in Q; rewrite Q in LM; cbn [length] in LM; clearbody n; lia).
  destruct (arg_best Rltb (map (fun m => aic m z) ms)) as [i|] eqn:AB.
  - cbn [bind]. unfold get. assert (LI : (i < length ms)%nat).
    { destruct (arg_best_spec Rltb) with (l := map (fun m => aic m z) ms) as (i' & AB' & v & IB & _); try exact NE.
      - intros a b A1. apply Rltb_true in A1. apply Rltb_false. lra.
      - intros a b c A1 B1. apply Rltb_false in A1, B1. apply Rltb_false. lra.
      - rewrite AB in AB'. injection AB' as <-. rewrite <- (map_length (fun m => aic m z)). apply nth_error_Some. rewrite IB. discriminate. }
    destruct (nth_error ms i) as [mb|] eqn:NB; [cbn [bind]; eexists; reflexivity|]. apply nth_error_None in NB. lia.
  - exfalso. destruct (map (fun m => aic m z) ms); [congruence|discriminate].
Qed.
End Fit.

(** ** Pigeons *)
Lemma filter_split {X} (p q : X -> bool) l : (length (filter p l) <= length (filter q l) + length (filter (fun x => p x && negb (q x)) l))%nat.
Proof. induction l as [|x l IH]; [cbn; lia|]. cbn [filter]. destruct (p x), (q x); cbn [andb negb length]; lia. Qed.
Lemma pigeons {X} (q : nat -> X -> bool) c l K : forall p, (forall v, In v l -> p v = true -> exists i, (i < K)%nat /\ q i v = true) ->
  (forall i, (i < K)%nat -> INR (length (filter (q i) l)) <= c) -> INR (length (filter p l)) <= INR K * c.
Proof.
  induction K as [|K IH]; intros p H C.
  - assert (F : filter p l = []) by (destruct (filter p l) as [|v r] eqn:F; [reflexivity|]; assert (I : In v (filter p l)) by (rewrite F; left; reflexivity); apply filter_In in I; destruct (H v (proj1 I) (proj2 I)) as (i & Q & _); lia). rewrite F. cbn. lra.
  - specialize (IH (fun x => p x && negb (q K x))). pose proof (filter_split p (q K) l) as FS. apply le_INR in FS. rewrite plus_INR in FS. pose proof (C K ltac:(lia)) as CK. rewrite S_INR.
    assert (INR (length (filter (fun x => p x && negb (q K x)) l)) <= INR K * c); [|lra]. apply IH; [|intros i I; apply C; lia].
    intros v V P. apply andb_true_iff in P. destruct P as (P & Q). apply negb_true_iff in Q. destruct (H v V P) as (i & I & QI). exists i. split; [|exact QI]. destruct (Nat.eq_dec i K) as [->|]; [congruence|lia].
Qed.
(** So a bin has many of them. *)
Lemma full_bin {X} (q : nat -> X -> bool) p c l K : (forall v, In v l -> p v = true -> exists i, (i < K)%nat /\ q i v = true) ->
  0 < c -> INR K * c < INR (length (filter p l)) -> exists i, (i < K)%nat /\ c <= INR (length (filter (q i) l)).
Proof.
  intros H C L. destruct (Classical_Prop.classic (exists i, (i < K)%nat /\ c <= INR (length (filter (q i) l)))) as [Y|N]; [exact Y|]. exfalso.
  assert (INR (length (filter p l)) <= INR K * c); [|lra]. apply (pigeons q); [exact H|]. intros i I. apply Rnot_lt_le. intros Q. apply N. exists i. split; [exact I|lra].
Qed.

(** ** Binned samples *)
Lemma every_every {X} k (y : list X) : (1 <= k)%nat -> every_kth k y (every k y).
Proof.
  intros K i0. unfold every.
  assert (G : forall (l : list X) i s r, (r < k)%nat -> ((s + r) mod k = 0)%nat -> (forall j, (j < r)%nat -> ((s + j) mod k <> 0)%nat) ->
    nth_error (map snd (filter (fun p : nat * X => (fst p mod k =? 0)%nat) (combine (seq s (length l)) l))) i = nth_error l (r + i * k)%nat).
  {
    induction l as [|x l IH]; intros i s r RK RM RN; [cbn [length seq combine filter map]; destruct i; destruct (r + _)%nat; reflexivity|].
    cbn [length seq combine filter fst]. destruct r as [|r].
    - rewrite Nat.add_0_r in RM. rewrite (proj2 (Nat.eqb_eq _ _) RM). cbn [map snd]. destruct i as [|i]; [reflexivity|]. cbn [nth_error]. rewrite (IH i (S s) (k - 1)%nat).
      + replace (0 + S i * k)%nat with (S (k - 1 + i * k)) by lia. reflexivity.
      + lia.
      + replace (S s + (k - 1))%nat with (s + 1 * k)%nat by lia. rewrite Nat.mod_add by lia. exact RM.
      + intros j J Q. replace (S s + j)%nat with (s + S j)%nat in Q by lia. rewrite <- Nat.add_mod_idemp_l, RM, Nat.add_0_l, Nat.mod_small in Q by lia. lia.
    - assert (Z : (s mod k =? 0)%nat = false) by (apply Nat.eqb_neq; specialize (RN 0%nat ltac:(lia)); rewrite Nat.add_0_r in RN; exact RN). rewrite Z. rewrite (IH i (S s) r); [reflexivity|lia|replace (S s + r)%nat with (s + S r)%nat by lia; exact RM|].
      intros j J. replace (S s + j)%nat with (s + S j)%nat by lia. apply RN. lia. }
  rewrite (G y i0 0%nat 0%nat); [f_equal; lia|lia|apply Nat.mod_0_l; lia|intros j J; lia].
Qed.
Lemma kth_unique {X} k (y z z' : list X) : every_kth k y z -> every_kth k y z' -> z = z'.
Proof.
  intros A B. assert (E : forall i, nth_error z i = nth_error z' i) by (intros i; rewrite A, B; reflexivity). clear A B. revert z' E. induction z as [|x z IH]; intros [|x' z'] E; [reflexivity|specialize (E 0%nat); discriminate..|].
  pose proof (E 0%nat) as E0. injection E0 as <-. f_equal. apply IH. intros i. exact (E (S i)).
Qed.
Lemma looked_thinned n y z : 0 < n -> looked_at n y z -> thinned y (Some n) = downsample Int_part (5 / 100) z n (Some 500%nat) /\ (forall v, In v z -> In v y).
Proof.
  intros N L. unfold thinned, py_div. cbn [neq NumR nofZ ndiv]. rewrite (proj2 (Reqb_false n (IZR 0))) by (cbn; lra). cbn [bind].
  assert (RT : INR (length y) / n * n = INR (length y)) by (field; lra). set (r := INR (length y) / n) in *  . destruct L as [(L & ->)|(L & k & K & E)].
  - rewrite (proj2 (Rltb_false 10 r)) by nra. split; [reflexivity|tauto].
  - assert (R10 : 10 < r) by nra. rewrite (proj2 (Rltb_true 10 r) R10). destruct (truncR_pos (r / 2)) as (T & T0); [lra|]. fold r in K. assert (K5 : 5 < INR k + 1) by lra.
    assert (EK : Nat.max 1 (Z.to_nat (truncR (r / 2))) = k).
    { rewrite INR_IZR_INZ in K, K5. assert (A : (truncR (r / 2) = Z.of_nat k)%Z). { apply Z.le_antisymm; apply Z.lt_succ_r, lt_IZR; rewrite succ_IZR; lra. } rewrite A, Nat2Z.id. assert (4 < Z.of_nat k)%Z by (apply lt_IZR; lra). lia. }
    rewrite EK. assert (K1 : (1 <= k)%nat) by (apply INR_le; cbn [INR]; lra). rewrite (kth_unique k y z (every k y) E (every_every k y K1)). split; [reflexivity|]. intros v. apply every_In.
Qed.
Lemma some_counted {X} (p : X -> bool) l : 0 < INR (length (filter p l)) -> exists v, In v l /\ p v = true.
Proof. intros H. destruct (filter p l) as [|v r] eqn:F; [cbn in H; lra|]. exists v. apply filter_In. rewrite F. left. reflexivity. Qed.
(** Binning keeps the range of samples when enough are near its ends. *)
Lemma binned_range lo hi z n k : (forall v, In v z -> lo <= v <= hi) -> lo < hi -> 0 < n -> z <> [] -> INR k = 500 ->
  200 * INR (length z) <= n * INR (at_most (lo + 19 / 100 * (hi - lo)) z) ->
  200 * INR (length z) <= n * INR (at_least (hi - 19 / 100 * (hi - lo)) z) ->
  exists out lo' hi', downsample Int_part (5 / 100) z n (Some k) = Ok out /\ ranges lo' hi' out
    /\ lo <= lo' <= lo + 191 / 1000 * (hi - lo) /\ hi - 191 / 1000 * (hi - lo) <= hi' <= hi.
Proof.
  intros B L N NE K500 CL CH. assert (LP : 0 < INR (length z)) by (destruct z; [congruence|apply lt_0_INR; cbn [length]; lia]). set (xl := lo + 19 / 100 * (hi - lo)) in *  . set (xh := hi - 19 / 100 * (hi - lo)) in *  . unfold at_most, at_least in *  .
  destruct (some_counted (fun v => Rleb v xl) z) as (vl & VL & QL); [nra|]. destruct (some_counted (fun v => Rleb xh v) z) as (vh & VH & QH); [nra|]. apply Rleb_true in QL, QH.
  destruct (ranges_ex z NE) as (a & b & RG). pose proof RG as (IA & IB & AB). pose proof (AB vl VL) as AL. pose proof (AB vh VH) as AH. pose proof (B a IA) as BA. pose proof (B b IB) as BB.
  assert (XL : xl = lo + 19 / 100 * (hi - lo)) by reflexivity. assert (XH : xh = hi - 19 / 100 * (hi - lo)) by reflexivity. clearbody xl xh.
  rewrite downsample_scale by exact NE. cbv zeta. destruct (Rleb (INR (length z)) n) eqn:SH; [exists z, a, b; split; [reflexivity|]; split; [exact RG|]; lra|]. apply Rleb_false in SH.
  assert (K2 : (2 <= k)%nat) by (apply INR_le; cbn [INR]; lra).
  destruct (bin_linear_spec (5 / 100) z k ltac:(lra) NE ltac:(lia)) as (counts & edges & lo' & hi' & BL & LE & LC & _ & _ & _ & _ & _ & CN & UN & _).
  assert (EE : edges = map (fun i => a + INR i * ((b - a) / INR k)) (seq 0 (k + 1))).
  { pose proof BL as B'. unfold bin_linear, linear_range in B'. destruct (ranges_py a b z RG) as (PA & PB & _). rewrite PA, PB in B'. cbn [bind] in B'. cbn [neq NumR] in B'. rewrite (proj2 (Reqb_false a b)) in B' by lra. cbn [bind fst snd] in B'. rewrite linspace_R in B' by lia. destruct (histogram z _); [|discriminate]. cbn [bind] in B'. injection B' as _ <-. reflexivity. }
  rewrite BL. cbn [bind fst snd]. rewrite K500 in EE. set (w := (b - a) / 500) in *  . assert (W : 62 / 100 * (hi - lo) <= 500 * w <= hi - lo /\ b = a + 500 * w) by (unfold w; lra). clearbody w.
  assert (EN : forall i, (i < k + 1)%nat -> nth_error edges i = Some (a + INR i * w)). { intros i I. rewrite EE, nth_error_map. assert (S' : nth_error (seq 0 (k + 1)) i = Some i) by (rewrite (nth_error_nth' _ 0%nat) by (rewrite seq_length; exact I); rewrite seq_nth by exact I; reflexivity). rewrite S'. reflexivity. }
  assert (IN : forall i v, in_bin edges i v = true -> (i < k)%nat /\ a + INR i * w <= v <= a + INR i * w + w).
  { intros i v Q. unfold in_bin in Q. destruct (Nat.lt_ge_cases i k) as [I|I].
    - split; [exact I|]. rewrite (EN i), (EN (i + 1)%nat) in Q by lia. rewrite plus_INR in Q. cbn [INR] in Q. apply andb_true_iff in Q. destruct Q as (Q1 & Q2). apply Rleb_true in Q1. destruct (i + 2 =? length edges)%nat; [apply Rleb_true in Q2|apply Rltb_true in Q2]; lra.
    - assert (Z : nth_error edges (i + 1) = None) by (apply nth_error_None; lia). rewrite Z in Q. destruct (nth_error edges i); discriminate. }
  set (out := replicate_bins _ _ _ _).
  assert (CT : forall i, (i < k)%nat -> INR (length z) <= n * INR (length (filter (in_bin edges i) z)) -> In (a + INR i * w + w / 2) out).
  { intros i I O. unfold out, replicate_bins. apply in_flat_map. exists (count_if (in_bin edges i) z, a + INR i * w + w / 2). split.
    - apply (nth_error_In _ i). apply nth_combine. split; [apply CN; exact I|]. erewrite (centres_nth edges i) by (apply EN; lia). f_equal. rewrite plus_INR. cbn [INR]. field.
    - cbn [fst snd]. assert (F : (1 <= Int_part (nofZ (count_if (in_bin edges i) z) * (n / INR (length z))))%Z).
      { unfold count_if. cbn [nofZ NumR]. rewrite <- INR_IZR_INZ. set (cnt := INR (length (filter (in_bin edges i) z))) in *  . assert (1 <= cnt * (n / INR (length z))). { apply (Rmult_le_reg_r (INR (length z))); [lra|]. replace (cnt * (n / INR (length z)) * INR (length z)) with (n * cnt) by (field; lra). lra. }
        destruct (base_Int_part (cnt * (n / INR (length z)))) as (P & Q). apply Zlt_succ_le. apply lt_IZR. rewrite succ_IZR. lra. }
      cbn [nmul NumR]. destruct (Z.to_nat _) eqn:ZN; [|left; reflexivity]. lia. }
  assert (OB : forall v, In v out -> a <= v <= b).
  { intros v V. unfold out, replicate_bins in V. apply in_flat_map in V. destruct V as ([c u] & P & V). cbn [fst snd] in V. apply repeat_spec in V. subst v. apply In_nth_error in P. destruct P as (j & P). apply nth_combine in P. destruct P as (PC & PU).
    assert (J : (j < k)%nat) by (rewrite <- LC; apply nth_error_Some; rewrite PC; discriminate). erewrite (centres_nth edges j) in PU by (apply EN; lia). injection PU as <-. rewrite plus_INR. cbn [INR]. pose proof (pos_INR j). assert (INR j + 1 <= 500) by (rewrite <- K500, <- S_INR; apply le_INR; lia). nra. }
  assert (C : 0 < INR (length z) / n) by (apply Rdiv_lt_0_compat; lra). assert (CE : INR (length z) / n * n = INR (length z)) by (field; lra). set (c := INR (length z) / n) in *  . clearbody c.
  assert (KK : exists q, INR q = 199) by (exists 199%nat; rewrite INR_IZR_INZ; reflexivity). destruct KK as (q & KK).
  assert (FEW : forall i, INR i * w <= 19 / 100 * (hi - lo) -> (i < q)%nat). { intros i I. apply INR_lt. rewrite KK. pose proof (pos_INR i). apply Rnot_le_lt. intros Q. nra. }
  assert (MORE : forall (p1 p2 : R -> bool), c <= INR (length (filter (fun v => p1 v && p2 v) z)) -> INR (length z) <= n * INR (length (filter p1 z)) /\ exists v, In v z /\ p1 v = true /\ p2 v = true).
  { intros p1 p2 Q. destruct (some_counted (fun v => p1 v && p2 v) z) as (v & V & P); [lra|]. apply andb_true_iff in P. split; [|exists v; tauto].
    assert (LL : (length (filter (fun v => p1 v && p2 v) z) <= length (filter p1 z))%nat). { clear. induction z as [|x z IH]; [cbn; lia|]. cbn [filter]. destruct (p1 x), (p2 x); cbn [andb length]; lia. } apply le_INR in LL. nra. }
  destruct (full_bin (fun i v => in_bin edges i v && Rleb v xl) (fun v => Rleb v xl) c z q) as (i & I & FI).
  { intros v V P. destruct (UN v V) as (i & Q & _). exists i. split; [|cbn beta; rewrite Q, P; reflexivity]. destruct (IN i v Q) as (_ & G). apply Rleb_true in P. apply FEW. lra. }
  { exact C. } { rewrite KK. nra. }
  destruct (MORE (in_bin edges i) (fun v => Rleb v xl) FI) as (F1 & v1 & V1 & P1 & Q1). apply Rleb_true in Q1. destruct (IN _ _ P1) as (I1 & G1).
  destruct (full_bin (fun j v => in_bin edges (k - 1 - j) v && Rleb xh v) (fun v => Rleb xh v) c z q) as (j & J & FJ).
  { intros v V P. destruct (UN v V) as (i' & Q & _). destruct (IN i' v Q) as (I' & G). exists (k - 1 - i')%nat. replace (k - 1 - (k - 1 - i'))%nat with i' by lia. split; [|cbn beta; rewrite Q, P; reflexivity]. apply Rleb_true in P. apply FEW. rewrite !minus_INR by lia. rewrite K500. cbn [INR]. lra. }
  { exact C. } { rewrite KK. nra. }
  destruct (MORE (in_bin edges (k - 1 - j)) (fun v => Rleb xh v) FJ) as (F2 & v2 & V2 & P2 & Q2). apply Rleb_true in Q2. destruct (IN _ _ P2) as (I2 & G2).
  pose proof (CT _ I1 F1) as O1. pose proof (CT _ I2 F2) as O2. destruct (ranges_ex out) as (a' & b' & RG'); [intros Q; rewrite Q in O1; destruct O1|]. exists out, a', b'. split; [reflexivity|]. split; [exact RG'|].
  destruct RG' as (IA' & IB' & AB'). pose proof (OB a' IA'). pose proof (OB b' IB'). pose proof (AB' _ O1). pose proof (AB' _ O2). lra.
Qed.
(** The range of the samples the levels are found from. *)
Lemma thinned_range limit lo hi y : ranges lo hi y -> lo < hi -> represented limit lo hi y ->
  exists out lo' hi', thinned y limit = Ok out /\ ranges lo' hi' out
    /\ lo <= lo' <= lo + 191 / 1000 * (hi - lo) /\ hi - 191 / 1000 * (hi - lo) <= hi' <= hi.
Proof.
  intros RG L RP. pose proof RG as (IL & IH & B). assert (N : y <> []) by (intros ->; destruct IL).
  assert (SELF : thinned y limit = Ok y -> exists out lo' hi', thinned y limit = Ok out /\ ranges lo' hi' out /\ lo <= lo' <= lo + 191 / 1000 * (hi - lo) /\ hi - 191 / 1000 * (hi - lo) <= hi' <= hi) by (intros E; exists y, lo, hi; split; [exact E|]; split; [exact RG|lra]).
  destruct limit as [n|]; [|apply SELF; reflexivity]. destruct RP as [SH|(NP & z & LA & CL & CH)].
  - apply SELF. apply (thinned_short (Config None 0 (Some n) RISING None 0 false 0 0 0 0 0 0 false None None None)); [|exact N]. intros m E. cbn in E. injection E as <-. exact SH.
  - destruct (looked_thinned n y z NP LA) as (-> & SUB). apply binned_range; try assumption.
    + intros v V. apply B. apply SUB. exact V.
    + destruct LA as [(_ & ->)|(_ & k & _ & E)]; [exact N|]. intros ->. specialize (E 0%nat). cbn in E. destruct y; [congruence|discriminate].
    + rewrite INR_IZR_INZ. reflexivity.
Qed.
