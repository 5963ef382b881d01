(** Lemmas on the recovery of a clock from edges with jitter. *)
From Coq Require Import ZArith Reals Bool List Lia Lra Sorted Permutation.
Import ListNotations.
From Verif Require Import Base Num RBool StatsModel CdrModel CdrSpec CdrProofs CdrSearchProofs CdrRunProofs CdrProps CdrJitterSpec.
Local Open Scope R_scope.

Lemma Rabs_le_between x a : Rabs x <= a -> - a <= x <= a.
Proof. intros H. pose proof (Rle_abs x). pose proof (Rle_abs (- x)) as Q. rewrite Rabs_Ropp in Q. lra. Qed.
(** ** The spread of different numbers *)
Fixpoint pairs (l : list R) : R := match l with [] => 0 | a :: l' => total (map (fun b => (b - a)²) l') + pairs l' end.
Lemma total_cons a l : total (a :: l) = a + total l.
Proof. reflexivity. Qed.
Lemma shifted_squares a l : total (map (fun b => (b - a)²) l) = total (map Rsqr l) - 2 * a * total l + INR (length l) * (a * a).
Proof. induction l as [|b l IH]; [cbn; ring|]. cbn [map length]. rewrite !total_cons, S_INR, IH. unfold Rsqr. ring. Qed.
Lemma pairs_eq l : pairs l = INR (length l) * total (map Rsqr l) - total l * total l.
Proof. induction l as [|a l IH]; [cbn; ring|]. cbn [pairs map length]. rewrite !total_cons, S_INR, IH, shifted_squares. unfold Rsqr. ring. Qed.
Lemma spread_pairs ks : ks <> [] -> INR (length ks) * spread ks = pairs (map IZR ks).
Proof.
  intros N. unfold spread. cbv zeta. set (m := total (map IZR ks) / INR (length ks)). assert (P : 0 < INR (length ks)) by (destruct ks; [congruence|apply lt_0_INR; cbn; lia]).
  rewrite <- (map_map IZR (fun x => (x - m)²)), shifted_squares, pairs_eq, map_length. unfold m. field. lra.
Qed.
Lemma squares_from a l : forall j, (0 <= j)%Z -> StronglySorted Z.lt l -> Forall (fun b => a + j < b)%Z l ->
  let n := INR (length l) in n * (IZR j * IZR j) + IZR j * (n * (n + 1)) + n * (n + 1) * (2 * n + 1) / 6 <= total (map (fun b => (b - IZR a)²) (map IZR l)).
Proof.
  induction l as [|b l IH]; intros j J S F n; [unfold n; cbn; lra|]. inversion_clear S as [|? ? S' SB]. inversion_clear F as [|? ? B F']. cbn [map]. rewrite total_cons.
  assert (IHj := IH (j + 1)%Z ltac:(lia) S'). specialize (IHj ltac:(apply Forall_forall; intros x X; rewrite Forall_forall in SB; specialize (SB x X); lia)). cbv zeta in IHj.
  unfold n. cbn [length]. rewrite S_INR. set (k := INR (length l)) in *  . rewrite plus_IZR in IHj.
  assert (Q : IZR j + 1 <= IZR b - IZR a) by (rewrite <- minus_IZR, <- plus_IZR; apply IZR_le; lia). assert (JR : 0 <= IZR j) by (apply IZR_le; lia).
  assert (Q2 : (IZR j + 1) * (IZR j + 1) <= (IZR b - IZR a)²) by (unfold Rsqr; nra). lra.
Qed.
Lemma pairs_big l : StronglySorted Z.lt l -> let n := INR (length l) in n * n * (n * n - 1) / 12 <= pairs (map IZR l).
Proof.
  induction 1 as [|a l S IH F]; intros n; [unfold n; cbn; lra|]. cbv zeta in IH. cbn [map pairs]. pose proof (squares_from a l 0 ltac:(lia) S) as Q. specialize (Q ltac:(apply Forall_forall; intros x X; rewrite Forall_forall in F; specialize (F x X); lia)). cbv zeta in Q.
  unfold n. cbn [length]. rewrite S_INR. set (k := INR (length l)) in *  . pose proof (pos_INR (length l)) as KP. fold k in KP. nra.
Qed.
Lemma spread_big ks : ks <> [] -> StronglySorted Z.lt ks -> let n := INR (length ks) in n * (n * n - 1) <= 12 * spread ks.
Proof.
  intros N S n. assert (P : 0 < n) by (unfold n; destruct ks; [congruence|apply lt_0_INR; cbn; lia]). apply (Rmult_le_reg_l n); [exact P|].
  pose proof (pairs_big ks S) as B. cbv zeta in B. rewrite <- (spread_pairs ks N) in B. fold n in B. lra.
Qed.

(** ** The period *)
Lemma jittered_length J start T edges ks : jittered J start T edges ks -> length ks = length edges.
Proof. induction 1; cbn [length]; congruence. Qed.
Lemma jittered_misfit J start T edges ks : jittered J start T edges ks -> misfit edges ks start T <= INR (length edges) * (J * J).
Proof.
  unfold misfit. induction 1 as [|e k edges ks A F IH]; [cbn; lra|]. cbn [combine map length fst snd]. rewrite total_cons, S_INR. apply Rabs_le_between in A.
  assert ((e - start - IZR k * T)² <= J * J) by (unfold Rsqr; nra). lra.
Qed.
Lemma sorted_differ ks : StronglySorted Z.lt ks -> (2 <= length ks)%nat -> differ ks.
Proof. intros S L. destruct ks as [|a [|b l]]; [cbn in L; lia|cbn in L; lia|]. exists a, b. split; [left; reflexivity|]. split; [right; left; reflexivity|]. inversion_clear S as [|? ? _ F]. inversion_clear F. lia. Qed.
Lemma period_error J start T edges ks p : jittered J start T edges ks -> StronglySorted Z.lt ks -> (2 <= length edges)%nat -> best_period edges ks p ->
  let n := INR (length edges) in (p - T)² * (n * n - 1) <= 12 * (J * J).
Proof.
  intros JT S L B n. pose proof (jittered_length _ _ _ _ _ JT) as LK. pose proof (best_near edges ks p start T LK (sorted_differ ks S ltac:(lia)) B) as NB. pose proof (jittered_misfit _ _ _ _ _ JT) as M.
  assert (NK : ks <> []) by (destruct ks; [cbn in LK; lia|discriminate]). pose proof (spread_big ks NK S) as SB. cbv zeta in SB. rewrite LK in SB. fold n in SB, M.
  assert (P : 0 < n) by (apply lt_0_INR; lia). apply (Rmult_le_reg_l n); [exact P|]. pose proof (Rle_0_sqr (p - T)) as Q.
  assert ((p - T)² * (n * (n * n - 1)) <= (p - T)² * (12 * spread ks)) by (apply Rmult_le_compat_l; assumption). lra.
Qed.
Lemma period_close p T J n : 0 <= J -> 2 <= n -> (p - T)² * (n * n - 1) <= 12 * (J * J) -> Rabs (p - T) <= 2 * J.
Proof.
  intros J0 N H. apply Rsqr_incr_0_var; [|lra]. rewrite <- Rsqr_abs. pose proof (Rle_0_sqr (p - T)) as Q. replace ((2 * J)²) with (4 * (J * J)) by (unfold Rsqr; ring).
  assert ((p - T)² * 3 <= (p - T)² * (n * n - 1)) by (apply Rmult_le_compat_l; [exact Q|nra]). lra.
Qed.
Lemma period_drift p T J n m N : 0 <= J -> 2 <= n -> 0 <= N -> N <= m * (n - 1) -> (p - T)² * (n * n - 1) <= 12 * (J * J) -> N * Rabs (p - T) <= 7 / 2 * m * J.
Proof.
  intros J0 L N0 NM H. assert (M0 : 0 <= m) by nra. apply Rsqr_incr_0_var; [|apply Rmult_le_pos; lra]. rewrite Rsqr_mult, <- Rsqr_abs. pose proof (Rle_0_sqr (p - T)) as Q.
  assert (NN : N² <= m * m * (n * n - 1)). { unfold Rsqr. assert (N * N <= (m * (n - 1)) * (m * (n - 1))) by (apply Rmult_le_compat; lra). assert (m * m * ((n - 1) * (n - 1)) <= m * m * (n * n - 1)) by (apply Rmult_le_compat_l; nra). lra. }
  assert (N² * (p - T)² <= m * m * (n * n - 1) * (p - T)²) by (apply Rmult_le_compat_r; assumption). assert (m * m * ((p - T)² * (n * n - 1)) <= m * m * (12 * (J * J))) by (apply Rmult_le_compat_l; nra).
  replace ((7 / 2 * m * J)²) with (49 / 4 * (m * m * (J * J))) by (unfold Rsqr; field). assert (0 <= m * m * (J * J)) by (apply Rmult_le_pos; nra). lra.
Qed.
Lemma clearly_jittered J start T g K edges ks : jittered J start T edges ks -> edges <> [] -> gaps_at_most K ks -> IZR K * Rabs (T - g) + 2 * J < g / 2 -> clearly_numbered g edges ks.
Proof.
  intros JT. induction JT as [|e1 k1 edges ks A F IH]; intros N G C; [congruence|]. destruct F as [|e2 k2 edges ks A2 F]; [exact I|]. destruct G as (G1 & G2). split; [|apply IH; [discriminate|exact G2|exact C]].
  assert (D : Rabs (IZR (k2 - k1) * (T - g)) <= IZR K * Rabs (T - g)). { rewrite Rabs_mult, <- abs_IZR. apply Rmult_le_compat_r; [apply Rabs_pos|apply IZR_le; exact G1]. }
  apply Rabs_le_between in A. apply Rabs_le_between in A2. apply Rabs_le_between in D. rewrite minus_IZR in *  . apply Rabs_def1; lra.
Qed.
Lemma sorted_first ks a : StronglySorted Z.lt (a :: ks) -> forall k, In k (a :: ks) -> (a <= k <= last (a :: ks) 0)%Z.
Proof.
  revert a. induction ks as [|b ks IH]; intros a S k I; [destruct I as [->|[]]; cbn; lia|]. rewrite last_cons. inversion_clear S as [|? ? S' F]. specialize (IH b S'). assert (AB : (a < b)%Z) by (inversion_clear F; assumption).
  pose proof (IH b (or_introl eq_refl)). destruct I as [->|I]; [lia|]. specialize (IH k I). lia.
Qed.
Lemma sorted_count ks a : StronglySorted Z.lt (a :: ks) -> (Z.of_nat (length ks) <= last (a :: ks) 0 - a)%Z.
Proof.
  revert a. induction ks as [|b ks IH]; intros a S; [cbn; lia|]. rewrite last_cons. inversion_clear S as [|? ? S' F]. specialize (IH b S'). assert (AB : (a < b)%Z) by (inversion_clear F; assumption). cbn [length]. lia.
Qed.
Lemma jittered_rising J start T edges ks : 2 * J <= T -> jittered J start T edges ks -> StronglySorted Z.lt ks -> rising edges.
Proof.
  intros G JT. induction JT as [|e1 k1 edges ks A F IH]; intros S; [exact I|]. destruct F as [|e2 k2 edges ks A2 F]; [exact I|]. inversion_clear S as [|? ? S' SF]. split; [|apply IH; exact S'].
  assert (KK : (k1 < k2)%Z) by (inversion_clear SF; assumption). assert (Q : IZR k1 + 1 <= IZR k2) by (rewrite <- plus_IZR; apply IZR_le; lia). apply Rabs_le_between in A. apply Rabs_le_between in A2.
  assert (0 <= J) by lra. nra.
Qed.

(** ** The phase *)
Lemma same_numbers p phase J start T D : 0 < p -> D + 2 * J < p / 2 -> forall edges ks, jittered J start T edges ks -> forall qs errs, length qs = length edges -> length errs = length edges ->
  edges = map (fun q => phase + IZR (fst q) * p + snd q) (combine qs errs) -> jumps p errs = 0%nat -> (forall a b, In a ks -> In b ks -> Rabs (IZR (b - a) * (T - p)) <= D) ->
  exists c, qs = map (fun k => k + c)%Z ks.
Proof.
  intros P G edges ks JT. induction JT as [|e1 k1 edges ks A F IH]; intros qs errs LQ LE EQ JU DB.
  - exists 0%Z. destruct qs; [reflexivity|discriminate].
  - destruct qs as [|q1 qs]; [discriminate|]. destruct errs as [|x1 errs]; [discriminate|]. cbn [combine map fst snd] in EQ. injection EQ as E1 EQ.
    destruct F as [|e2 k2 edges ks A2 F]; [exists (q1 - k1)%Z; destruct qs; [cbn; f_equal; lia|discriminate]|].
    destruct qs as [|q2 qs]; [discriminate|]. destruct errs as [|x2 errs]; [discriminate|]. rewrite jumps_cons in JU. destruct (Rlt_dec (p / 2) (Rabs (x2 - x1))) as [|X]; [discriminate|]. apply Rnot_lt_le in X.
    destruct (IH (q2 :: qs) (x2 :: errs)) as (c & C); [cbn in *; lia|cbn in *; lia|exact EQ|exact JU|intros a b Ia Ib; apply DB; right; assumption|]. exists c. change (map (fun k => (k + c)%Z) (k1 :: k2 :: ks)) with ((k1 + c)%Z :: map (fun k => (k + c)%Z) (k2 :: ks)). rewrite <- C. f_equal.
    assert (C2 : q2 = (k2 + c)%Z) by (injection C; intros; assumption). assert (E2 : e2 = phase + IZR q2 * p + x2) by (cbn [combine map fst snd] in EQ; injection EQ; intros; assumption).
    pose proof (DB k1 k2 (or_introl eq_refl) (or_intror (or_introl eq_refl))) as D1. apply Rabs_le_between in A. apply Rabs_le_between in A2. apply Rabs_le_between in X. apply Rabs_le_between in D1. rewrite minus_IZR in D1.
    assert (LT : (- 1 < (q2 - q1) - (k2 - k1) < 1)%Z); [|lia]. split; apply lt_IZR; rewrite !minus_IZR; apply (Rmult_lt_reg_r p); lra.
Qed.
Lemma errors_near p phase J start T c z edges l : jittered J start T edges l -> forall errs, length errs = length edges ->
  edges = map (fun q => phase + IZR (fst q) * p + snd q) (combine (map (fun k => k + c)%Z l) errs) ->
  forall x, In x errs -> exists k, In k l /\ Rabs (x - (start + IZR z * T - phase - IZR (z + c) * p + IZR (k - z) * (T - p))) <= J.
Proof.
  induction 1 as [|e k edges l A F IH]; intros errs LE EQ x I; [destruct errs; [destruct I|discriminate]|].
  destruct errs as [|x1 errs]; [discriminate|]. cbn [map combine fst snd] in EQ. injection EQ as E1 E2. destruct I as [<-|I].
  - exists k. split; [left; reflexivity|]. rewrite plus_IZR in *  . rewrite minus_IZR. apply Rabs_le_between in A. apply Rabs_le. lra.
  - destruct (IH errs ltac:(cbn in LE; lia) E2 x I) as (k' & I' & Q). exists k'. split; [right; exact I'|exact Q].
Qed.
Lemma total_between a b (l : list R) : (forall x, In x l -> a <= x <= b) -> INR (length l) * a <= total l <= INR (length l) * b.
Proof.
  induction l as [|x l IH]; intros H; [cbn; lra|]. cbn [length]. rewrite total_cons, S_INR. pose proof (H x (or_introl eq_refl)). pose proof (IH (fun y I => H y (or_intror I))). lra.
Qed.
(** The clock edges, their number and the errors, for a period off by little. *)
Lemma clock_jittered J start T p D edges k0 ks resampled clk ties : 0 < p -> 0 <= J -> D + 2 * J < p / 2 -> jittered J start T edges (k0 :: ks) -> StronglySorted Z.lt (k0 :: ks) ->
  let N := duration (k0 :: ks) in IZR N * Rabs (p - T) <= D -> Rabs (p - T) <= 2 * J -> clock_of edges p resampled clk ties ->
  (forall q, spacing clk q -> q = p) /\ (N <= Z.of_nat (length clk) <= N + 1)%Z
  /\ (forall i c, nth_error clk i = Some c -> Rabs (c - (start + (IZR k0 + INR i + 1 / 2) * T)) <= D + 2 * J)
  /\ (forall x, In x ties -> Rabs x <= D + 2 * J).
Proof.
  intros P J0 G JT SS N DN D2 (phase & n & qs & errs & PH & CK & LN & LQ & LE & EQ & TO & JU & TI).
  assert (KB : forall k, In k (k0 :: ks) -> (0 <= k - k0 <= N)%Z) by (intros k I; pose proof (sorted_first ks k0 SS k I); unfold N, duration; cbn [hd]; lia).
  pose proof (KB k0 (or_introl eq_refl)) as N0. assert (NR : 0 <= IZR N) by (apply IZR_le; lia).
  destruct (same_numbers p phase J start T D P G edges (k0 :: ks) JT qs errs LQ LE EQ JU) as (c & QC).
  { intros a b Ia Ib. rewrite Rabs_mult, <- abs_IZR, (Rabs_minus_sym T p). eapply Rle_trans; [|exact DN]. apply Rmult_le_compat_r; [apply Rabs_pos|]. apply IZR_le. apply KB in Ia. apply KB in Ib. lia. }
  set (X := start + IZR k0 * T - phase - IZR (k0 + c) * p).
  (** every error *)
  assert (ER : forall x, In x errs -> exists k, In k (k0 :: ks) /\ Rabs (x - (X + IZR (k - k0) * (T - p))) <= J).
  { intros x I. rewrite QC in EQ. exact (errors_near p phase J start T c k0 edges (k0 :: ks) JT errs LE EQ x I). }
  set (s := T - p) in *  . assert (AS : Rabs s = Rabs (p - T)) by (unfold s; apply Rabs_minus_sym). rewrite <- AS in DN, D2.
  assert (KS : forall k, In k (k0 :: ks) -> Rmin 0 (IZR N * s) <= IZR (k - k0) * s <= Rmax 0 (IZR N * s)).
  { intros k I. specialize (KB k I). assert (0 <= IZR (k - k0) <= IZR N) by (split; apply IZR_le; lia). unfold Rmin, Rmax. destruct (Rle_dec 0 (IZR N * s)) as [Q|Q]; destruct (Rle_dec 0 s); nra. }
  set (lo := Rmin 0 (IZR N * s)) in *  . set (hi := Rmax 0 (IZR N * s)) in *  .
  assert (LH : lo <= 0 <= hi /\ hi - lo <= D). { assert (AD : Rabs (IZR N * s) <= D) by (rewrite Rabs_mult, (Rabs_right (IZR N)) by lra; exact DN). apply Rabs_le_between in AD. unfold lo, hi, Rmin, Rmax. destruct (Rle_dec 0 (IZR N * s)); lra. }
  assert (EB : forall x, In x errs -> X + lo - J <= x <= X + hi + J). { intros x I. destruct (ER x I) as (k & K & Q). specialize (KS k K). apply Rabs_le_between in Q. lra. }
  pose proof (total_between _ _ _ EB) as TB. rewrite TO in TB. assert (EP : 0 < INR (length errs)) by (apply lt_0_INR; rewrite LE, <- (jittered_length _ _ _ _ _ JT); cbn; lia).
  assert (XB : - hi - J <= X <= - lo + J) by (split; apply (Rmult_le_reg_l (INR (length errs))); lra).
  assert (ES : forall x, In x errs -> Rabs x <= D + 2 * J) by (intros x I; specialize (EB x I); apply Rabs_le; lra).
  (** the number of the first edge *)
  assert (HD : Rabs (hd 0 edges - (start + IZR k0 * T)) <= J) by (inversion_clear JT; assumption). apply Rabs_le_between in HD.
  assert (C0 : (k0 + c = 0)%Z). { assert (E : hd 0 edges - phase = X + IZR (k0 + c) * p + (hd 0 edges - (start + IZR k0 * T))) by (unfold X; lra). assert (LT : (- 1 < k0 + c < 1)%Z); [|lia]. split; apply lt_IZR; apply (Rmult_lt_reg_r p); lra. }
  assert (XE : X = start + IZR k0 * T - phase) by (unfold X; rewrite C0; lra).
  assert (LC : length clk = n) by (rewrite CK, map_length, seq_length; reflexivity).
  (** the last edge *)
  assert (LA : Rabs (last edges 0 - (start + IZR (last (k0 :: ks) 0%Z) * T)) <= J). { clear -JT. inversion JT as [|e ? es ? A F]; subst. clear JT. revert e k0 A. induction F as [|e' k' es l A' F IH]; intros e k A; [exact A|rewrite !last_cons; apply IH; exact A']. }
  assert (LK : IZR (last (k0 :: ks) 0%Z) = IZR k0 + IZR N) by (unfold N, duration; cbn [hd]; rewrite minus_IZR; lra). rewrite LK in LA. apply Rabs_le_between in LA.
  assert (NS : - D <= IZR N * s <= D). { assert (Q : Rabs (IZR N * s) <= D) by (rewrite Rabs_mult, (Rabs_right (IZR N)) by lra; exact DN). apply Rabs_le_between. exact Q. }
  assert (LB : IZR N * p - (D + 2 * J) <= last edges 0 - hd 0 edges <= IZR N * p + (D + 2 * J)) by (unfold s in NS; lra).
  assert (NB : (N <= Z.of_nat n <= N + 1)%Z). { rewrite INR_IZR_INZ in LN. split; [assert (Q : (N - 1 < Z.of_nat n)%Z)|assert (Q : (Z.of_nat n < N + 2)%Z)]; try lia; apply lt_IZR; rewrite ?minus_IZR, ?plus_IZR; apply (Rmult_lt_reg_r p); lra. }
  split; [|split; [rewrite LC; exact NB|split]].
  - intros q (i & a & b & A & B & ->). assert (IL : (S i < n)%nat) by (rewrite <- LC; apply nth_error_Some; congruence). rewrite CK in A, B. rewrite nth_error_map, (nth_error_nth' _ 0%nat), seq_nth in A by (rewrite ?seq_length; lia). rewrite nth_error_map, (nth_error_nth' _ 0%nat), seq_nth in B by (rewrite ?seq_length; lia).
    cbn [option_map] in A, B. assert (EA : a = phase + p / 2 + INR (0 + i) * p) by congruence. assert (EB' : b = phase + p / 2 + INR (0 + S i) * p) by congruence. rewrite Nat.add_0_l in EA, EB'. rewrite S_INR in EB'. lra.
  - intros i q Q. assert (IL : (i < n)%nat) by (rewrite <- LC; apply nth_error_Some; congruence). rewrite CK in Q. rewrite nth_error_map, (nth_error_nth' _ 0%nat), seq_nth in Q by (rewrite ?seq_length; lia). cbn [option_map] in Q. assert (EQ' : q = phase + p / 2 + INR (0 + i) * p) by congruence. rewrite Nat.add_0_l in EQ'. rewrite EQ'.
    assert (IN : 0 <= INR i <= IZR N) by (split; [apply pos_INR|rewrite INR_IZR_INZ; apply IZR_le; lia]).
    assert (IB : lo <= INR i * s <= hi). { unfold lo, hi, Rmin, Rmax. destruct (Rle_dec 0 (IZR N * s)) as [Z|Z]; destruct (Rle_dec 0 s); nra. }
    apply Rabs_le_between in D2. apply Rabs_le. replace (phase + p / 2 + INR i * p - (start + (IZR k0 + INR i + 1 / 2) * T)) with (- X - INR i * s - s / 2) by (rewrite XE; unfold s; field). lra.
  - intros x I. destruct resampled; [|subst ties; apply ES; exact I]. destruct (Forall2_in_r _ _ _ _ TI I) as (t & _ & [(-> & _)|(a & q & b & Q & -> & _)]).
    + apply ES. destruct errs as [|x errs]; [cbn in EP; lra|left; reflexivity].
    + assert (IQ : In q (combine edges errs)) by (rewrite Q; apply in_or_app; right; left; reflexivity). destruct q as [e x]. apply in_combine_r in IQ. apply ES. exact IQ.
Qed.

(** ** The search *)
Lemma tv_close e0 g e k : 0 < g -> Rabs (e - e0 - IZR k * g) < g / 2 -> tv e0 g e = e - e0 - IZR k * g.
Proof.
  intros G H. apply (tie_unique g (e - e0)); [exact G|apply tv_tie; exact G|]. apply Rabs_def2 in H. exists k. lra.
Qed.
Lemma quiet J start T g D e0 l k0 ks : 0 < g -> D + 2 * J < g / 2 -> jittered J start T (e0 :: l) (k0 :: ks) -> (forall a b, In a (k0 :: ks) -> In b (k0 :: ks) -> Rabs (IZR (b - a) * (T - g)) <= D) ->
  jumps g (map (tv e0 g) (e0 :: l)) = 0%nat.
Proof.
  intros G DJ JT DB. assert (A0 : Rabs (e0 - (start + IZR k0 * T)) <= J) by (inversion_clear JT; assumption). apply Rabs_le_between in A0.
  assert (V : forall e k, Rabs (e - (start + IZR k * T)) <= J -> In k (k0 :: ks) -> tv e0 g e = e - e0 - IZR (k - k0) * g).
  { intros e k A I. apply tv_close; [exact G|]. apply Rabs_le_between in A. pose proof (DB k0 k (or_introl eq_refl) I) as Q. apply Rabs_le_between in Q. rewrite minus_IZR in *  . apply Rabs_def1; lra. }
  assert (Q : forall es zs, jittered J start T es zs -> (forall k, In k zs -> In k (k0 :: ks)) -> jumps g (map (tv e0 g) es) = 0%nat); [|exact (Q _ _ JT (fun k I => I))].
  induction 1 as [|e1 k1 es zs A F IH]; intros SUB; [reflexivity|]. destruct F as [|e2 k2 es zs A2 F]; [reflexivity|]. cbn [map]. rewrite jumps_cons. specialize (IH (fun k I => SUB k (or_intror I))). cbn [map] in IH. rewrite IH.
  pose proof (SUB k1 (or_introl eq_refl)) as I1. pose proof (SUB k2 (or_intror (or_introl eq_refl))) as I2. rewrite (V e1 k1 A I1), (V e2 k2 A2 I2). destruct (Rlt_dec _ _) as [X|X]; [exfalso|reflexivity].
  pose proof (DB k1 k2 I1 I2) as Q. apply Rabs_le_between in Q. apply Rabs_le_between in A. apply Rabs_le_between in A2. rewrite !minus_IZR in *  . assert (Y : Rabs (e2 - e0 - (IZR k2 - IZR k0) * g - (e1 - e0 - (IZR k1 - IZR k0) * g)) <= D + 2 * J) by (apply Rabs_le; lra). lra.
Qed.
Lemma jittered_gap t0 edges : forall ks, 0 < t0 -> clearly_numbered t0 edges ks -> Forall2 (fun d k => IZR k - 1 / 2 <= d / t0 < IZR k + 1 / 2) (gaps edges) (zgaps ks).
Proof.
  induction edges as [|e1 edges IH]; intros ks T C; [destruct C|]. destruct edges as [|e2 edges]; destruct ks as [|k1 [|k2 ks]]; try destruct C as []; [constructor|]. rewrite zgaps_cons. cbn [gaps]. constructor; [|apply (IH (k2 :: ks)); assumption].
  apply Rabs_def2 in H. assert (E : (e2 - e1) / t0 * t0 = e2 - e1) by (field; lra). split; [apply (Rmult_le_reg_r t0)|apply (Rmult_lt_reg_r t0)]; lra.
Qed.
Lemma jittered_rate t0 edges k0 ks : 0 < t0 -> clearly_numbered t0 edges (k0 :: ks) -> rate t0 edges = IZR (duration (k0 :: ks)) / INR (length ks).
Proof.
  intros T C. symmetry. apply rate_spec. exists (zgaps (k0 :: ks)). split; [apply jittered_gap; assumption|]. destruct (zgaps_total k0 ks) as (-> & ->). unfold duration. cbn [hd]. rewrite minus_IZR. reflexivity.
Qed.
Lemma last_in {X} (l : list X) : forall a d, In (last (a :: l) d) (a :: l).
Proof. induction l as [|b l IH]; intros a d; [left; reflexivity|]. rewrite last_cons. right. apply IH. Qed.
Lemma jittered_last J start T edges : forall k0 ks, jittered J start T edges (k0 :: ks) -> Rabs (last edges 0 - (start + IZR (last (k0 :: ks) 0%Z) * T)) <= J.
Proof. intros k0 ks JT. inversion JT as [|e ? es ? A F]; subst. clear JT. revert e k0 A. induction F as [|e' k' es l A' F IH]; intros e k A; [exact A|rewrite !last_cons; apply IH; exact A']. Qed.
Lemma jittered_search sort n_comp compiled k J start T t0 e0 l k0 ks : sorts sort -> (200000 <= n_comp)%Z -> 0 < t0 -> t0 <= 900 -> 99 / 100 * t0 <= T <= 101 / 100 * t0 -> 25 * J <= T ->
  jittered J start T (e0 :: l) (k0 :: ks) -> StronglySorted Z.lt (k0 :: ks) -> gaps_at_most 20 (k0 :: ks) -> ks <> [] ->
  let N := duration (k0 :: ks) in ((N + 16) * (N + 1) <= 8 * n_comp)%Z ->
  exists p, minim sort n_comp compiled k (e0 :: l) (t0 * (1 - 1 / 100)) (t0 * (1 + 1 / 100)) 100 = Ok p.
Proof.
  intros SO NC P PU TR J25 JT SS GA NK N NB. pose proof (jittered_length _ _ _ _ _ JT) as LK. cbn [length] in LK.
  assert (A0 : Rabs (e0 - (start + IZR k0 * T)) <= J) by (inversion_clear JT; assumption). assert (J0 : 0 <= J) by (pose proof (Rabs_pos (e0 - (start + IZR k0 * T))); lra). apply Rabs_le_between in A0.
  assert (NL : (Z.of_nat (length ks) <= N)%Z) by (pose proof (sorted_count ks k0 SS); unfold N, duration; cbn [hd]; lia). assert (KP : (1 <= length ks)%nat) by (destruct ks; [congruence|cbn; lia]).
  set (a := t0 * (1 - 1 / 100)). set (b := t0 * (1 + 1 / 100)). assert (AB : a < b) by (unfold a, b; lra).
  set (n := Z.max 20 (n_comp / Z.of_nat (length (e0 :: l)))).
  destruct (grid_near a b n T ltac:(unfold a, b; lra) AB ltac:(unfold n; lia)) as (g & Ig & DG).
  assert (GR : a <= g <= b) by (apply (span_c_in a b n); [lra|unfold n; lia|exact Ig]). assert (GP : 0 < g) by (unfold a in GR; lra).
  assert (NN : (N <= 8 * (n - 1))%Z).
  { unfold n. set (c := Z.of_nat (length (e0 :: l))). assert (C : (0 < c <= N + 1)%Z) by (unfold c; cbn [length]; lia).
    assert (Q : (8 * n_comp < 8 * (c * (n_comp / c) + c))%Z) by (pose proof (Z.mul_succ_div_gt n_comp c ltac:(lia)); nia). assert ((N + 16) * c <= 8 * n_comp)%Z by nia. assert (N + 8 < 8 * (n_comp / c))%Z by nia. lia. }
  assert (N1 : 19 <= IZR (n - 1)) by (apply (IZR_le 19); unfold n; lia). apply IZR_le in NN. rewrite mult_IZR in NN.
  assert (D : IZR N * Rabs (T - g) <= 16 / 100 * t0).
  { assert (ST : IZR (n - 1) * ((b - a) / IZR (n - 1)) = 2 / 100 * t0) by (unfold a, b; field; lra). pose proof (Rabs_pos (T - g)). assert (IZR N * Rabs (T - g) <= 8 * IZR (n - 1) * Rabs (T - g)) by (apply Rmult_le_compat_r; lra). nra. }
  assert (DB : forall x y, In x (k0 :: ks) -> In y (k0 :: ks) -> Rabs (IZR (y - x) * (T - g)) <= 16 / 100 * t0).
  { intros x y X Y. rewrite Rabs_mult, <- abs_IZR. eapply Rle_trans; [|exact D]. apply Rmult_le_compat_r; [apply Rabs_pos|]. apply IZR_le. pose proof (sorted_first ks k0 SS x X). pose proof (sorted_first ks k0 SS y Y). unfold N, duration. cbn [hd]. lia. }
  pose proof (quiet J start T g (16 / 100 * t0) e0 l k0 ks GP ltac:(unfold a in GR; lra) JT DB) as QU.
  assert (CG : forall t, a <= t <= b -> clearly_numbered t (e0 :: l) (k0 :: ks)).
  { intros t Ht. apply (clearly_jittered J start T t 20); [exact JT|discriminate|exact GA|]. assert (Rabs (T - t) <= 2 / 100 * t0) by (apply Rabs_le; unfold a, b in Ht; lra). unfold a in Ht. lra. }
  assert (EX : forall t, a <= t <= b -> exists s, tie_score Int_part (map (fun e => e - e0) (e0 :: l)) t = Ok s).
  { intros t Ht. destruct l as [|e1 l']; [cbn in LK; lia|]. apply score_exists_any with (last (e1 :: l') 0); [unfold a in Ht; lra|apply last_in|]. pose proof (jittered_last _ _ _ _ _ _ JT) as LA. rewrite last_cons in LA. apply Rabs_le_between in LA.
    assert (Q : IZR (last (k0 :: ks) 0%Z) >= IZR k0 + 1) by (rewrite <- plus_IZR; apply Rle_ge, IZR_le; unfold N, duration in NL; cbn [hd] in NL; lia). unfold b in Ht. nra. }
  destruct (EX g GR) as (s & S). apply (search_first sort SO n_comp compiled k e0 l a b 100 g s EX ltac:(lra) Ig S).
  rewrite score_eq, QU in S by exact GP. destruct (detrend_numbers false (e0 :: l) g (k0 :: ks) GP (CG g GR)) as (p & E & B); [apply sorted_differ; [exact SS|cbn; lia]|].
  rewrite E in S. cbn [bind] in S. apply (f_equal (fun r => match r with Ok v => v | _ => 0 end)) in S. cbv beta iota in S. subst s.
  pose proof (period_error J start T (e0 :: l) (k0 :: ks) p JT SS ltac:(cbn [length]; lia) B) as PE. cbv zeta in PE. assert (L2 : 2 <= INR (length (e0 :: l))) by (apply (le_INR 2); cbn [length]; lia).
  pose proof (period_close p T J _ J0 L2 PE) as P2.
  apply Rabs_le_between in P2. assert (Rabs (p - g) <= 2 * J + 2 / 100 * t0) by (apply Rabs_le; unfold a, b in GR; lra). lra.
Qed.
