(** C72: the clock recovered from data with jitter. *)
From Coq Require Import ZArith Reals Bool List Lia Lra Sorted Permutation.
Import ListNotations.
From Verif Require Import Base Num RBool StatsModel CdrModel CdrSpec CdrProofs CdrSearchProofs CdrRunProofs CdrProps CdrJitterSpec CdrJitterProofs.
Local Open Scope R_scope.

(** Data of any length whose edges have at most [J] of jitter, with a given
    period within 1 % of the true [T], runs of at most 20 symbols and [m]
    symbols per edge or fewer on average: if a clock is recovered, the error of
    its period falls with the number of edges, its edges do not drift away from
    the middles of the symbols over the whole record, one edge for each symbol
    (or one more), and no reported error is large. *)
Theorem C72_clock : forall sort n_comp compiled t0 T J start m edges numbers resampled clk ties,
  sorts sort -> (200000 <= n_comp)%Z -> 0 < t0 -> 99 / 100 * t0 <= T <= 101 / 100 * t0 ->
  jittered J start T edges numbers -> StronglySorted Z.lt numbers -> gaps_at_most 20 numbers ->
  IZR (duration numbers) <= m * (INR (length edges) - 1) -> 25 * J <= T -> (7 * m + 6) * J < T ->
  run Int_part sort n_comp compiled false (Some t0) edges resampled = Ok (clk, ties) ->
  let n := INR (length edges) in
  (forall p, spacing clk p -> (p - T)² * (n * n - 1) <= 12 * (J * J))
  /\ (duration numbers <= Z.of_nat (length clk) <= duration numbers + 1)%Z
  /\ (forall i c, nth_error clk i = Some c -> Rabs (c - (start + (IZR (hd 0%Z numbers) + INR i + 1 / 2) * T)) <= (7 / 2 * m + 2) * J)
  /\ (forall x, In x ties -> Rabs x <= (7 / 2 * m + 2) * J).
Proof.
  intros sort nc compiled t0 T J start m edges numbers rs clk ties SO NC P TR JT SS GA DM J25 JM RU n.
  pose proof (jittered_length _ _ _ _ _ JT) as LK. destruct numbers as [|k0 ks]; [destruct edges; [discriminate|cbn in LK; lia]|]. destruct edges as [|e0 l]; [cbn in LK; lia|].
  assert (J0 : 0 <= J). { inversion_clear JT. pose proof (Rabs_pos (e0 - (start + IZR k0 * T))). lra. }
  pose proof (jittered_rising J start T _ _ ltac:(lra) JT SS) as RI.
  destruct (C44_clock sort nc compiled false t0 (e0 :: l) rs clk ties SO NC P RI RU) as (L2 & _ & p & PP & CO & g & d & ns & GR & _ & _ & NU & DI & BP).
  assert (CN : clearly_numbered g (e0 :: l) (k0 :: ks)). { apply (clearly_jittered J start T g 20); [exact JT|discriminate|exact GA|]. assert (Rabs (T - g) <= 2 / 100 * t0) by (apply Rabs_le; lra). lra. }
  destruct (numbered_unique g _ _ _ ltac:(lra) CN NU) as (s & ->). apply best_shift in BP.
  pose proof (period_error J start T _ _ p JT SS L2 BP) as PE. cbv zeta in PE. fold n in PE. assert (N2 : 2 <= n) by (apply (le_INR 2); exact L2).
  assert (N0 : 0 <= IZR (duration (k0 :: ks))). { apply IZR_le. pose proof (sorted_count ks k0 SS). unfold duration. cbn [hd]. lia. }
  pose proof (period_close p T J n J0 N2 PE) as P2. pose proof (period_drift p T J n m _ J0 N2 N0 DM PE) as PD.
  destruct (clock_jittered J start T p (7 / 2 * m * J) (e0 :: l) k0 ks rs clk ties PP J0) as (SP & LN & CL & TI); try assumption.
  { apply Rabs_le_between in P2. lra. }
  split; [intros q Q; rewrite (SP q Q); exact PE|]. split; [exact LN|]. replace ((7 / 2 * m + 2) * J) with (7 / 2 * m * J + 2 * J) by ring. split; [exact CL|exact TI].
Qed.
Print Assumptions C72_clock.
(** Records of up to 1200 symbols (or 2800, with the limit of a million steps
    the code has without compiled modules) are recovered, for [m] up to 5 and
    periods up to 900 s. *)
Theorem C72_recovers : forall sort n_comp compiled t0 T J start m edges numbers resampled,
  sorts sort -> (200000 <= n_comp)%Z -> 0 < t0 <= 900 -> 99 / 100 * t0 <= T <= 101 / 100 * t0 ->
  jittered J start T edges numbers -> StronglySorted Z.lt numbers -> gaps_at_most 20 numbers -> (2 <= length edges)%nat ->
  IZR (duration numbers) <= m * (INR (length edges) - 1) -> m <= 5 -> 25 * J <= T -> (7 * m + 6) * J < T ->
  ((duration numbers + 16) * (duration numbers + 1) <= 8 * n_comp)%Z ->
  exists clk ties, run Int_part sort n_comp compiled false (Some t0) edges resampled = Ok (clk, ties).
Proof.
  intros sort nc compiled t0 T J start m edges numbers rs SO NC (P & PU) TR JT SS GA L2 DM M5 J25 JM NB.
  pose proof (jittered_length _ _ _ _ _ JT) as LK. destruct numbers as [|k0 ks]; [cbn in LK; lia|]. destruct edges as [|e0 [|e1 l]]; [cbn in LK; lia|cbn in L2; lia|].
  assert (J0 : 0 <= J). { inversion_clear JT. pose proof (Rabs_pos (e0 - (start + IZR k0 * T))). lra. }
  pose proof (jittered_rising J start T _ _ ltac:(lra) JT SS) as RI. assert (NK : ks <> []) by (destruct ks; [cbn in LK; lia|discriminate]).
  assert (CN : forall g, 99 / 100 * t0 <= g <= 101 / 100 * t0 -> clearly_numbered g (e0 :: e1 :: l) (k0 :: ks)). { intros g GR. apply (clearly_jittered J start T g 20); [exact JT|discriminate|exact GA|]. assert (Rabs (T - g) <= 2 / 100 * t0) by (apply Rabs_le; lra). lra. }
  assert (N2 : 2 <= INR (length (e0 :: e1 :: l))) by (apply (le_INR 2); exact L2). pose proof (sorted_count ks k0 SS) as SC.
  assert (LI : INR (length (e0 :: e1 :: l)) - 1 = INR (length ks)) by (rewrite <- LK; cbn [length]; rewrite S_INR; lra). rewrite LI in DM.
  assert (N0 : INR (length ks) <= IZR (duration (k0 :: ks))) by (rewrite INR_IZR_INZ; apply IZR_le; unfold duration; cbn [hd]; lia).
  assert (RT : 9 / 10 <= rate t0 (e0 :: e1 :: l) <= 5).
  { rewrite (jittered_rate t0 _ k0 ks P (CN t0 ltac:(lra))). set (c := INR (length ks)) in *  . set (N := IZR (duration (k0 :: ks))) in *  . assert (C1 : 1 <= c) by lra. assert (E : N / c * c = N) by (field; lra). assert (M' : m * c <= 5 * c) by (apply Rmult_le_compat_r; lra). split; apply (Rmult_le_reg_r c); try lra; rewrite E; lra. }
  destruct (jittered_search sort nc compiled 10 J start T t0 e0 (e1 :: l) k0 ks SO NC P PU TR J25 JT SS GA NK NB) as (g & S).
  rewrite run_eq by lra. rewrite (proj2 (Rltb_false _ _)), (proj2 (Rltb_false _ _)) by lra. cbn [orb]. unfold recovered. rewrite S. cbn [bind].
  assert (A1 : 0 < t0 * (1 - 1 / 100)) by lra. assert (A2 : t0 * (1 - 1 / 100) <= t0 * (1 + 1 / 100)) by lra.
  destruct (search_ok sort SO nc NC _ _ _ _ _ _ _ _ A1 A2 S) as (GR & _).
  assert (DI : differ (k0 :: ks)) by (apply sorted_differ; [exact SS|rewrite LK; exact L2]). destruct (detrend_numbers compiled (e0 :: e1 :: l) g (k0 :: ks) ltac:(lra) (CN g ltac:(lra)) DI) as (p & -> & BP). cbn [bind].
  pose proof (period_error J start T _ _ p JT SS L2 BP) as PE. cbv zeta in PE. pose proof (period_close p T J _ J0 N2 PE) as P2.
  assert (DM' : IZR (duration (k0 :: ks)) <= m * (INR (length (e0 :: e1 :: l)) - 1)) by (rewrite LI; exact DM). pose proof (pos_INR (length ks)) as PI. assert (N0' : 0 <= IZR (duration (k0 :: ks))) by lra. pose proof (period_drift p T J _ m _ J0 N2 N0' DM' PE) as PD.
  assert (PB : T - 2 * J <= p) by (apply Rabs_le_between in P2; lra). assert (PP : 0 < p) by lra.
  assert (QU : jumps p (map (tv e0 p) (e0 :: e1 :: l)) = 0%nat).
  { apply (quiet J start T p (7 / 2 * m * J) e0 (e1 :: l) k0 ks PP ltac:(lra) JT). intros a b Ia Ib. rewrite Rabs_mult, <- abs_IZR, (Rabs_minus_sym T p). eapply Rle_trans; [|exact PD]. apply Rmult_le_compat_r; [apply Rabs_pos|]. apply IZR_le.
    pose proof (sorted_first ks k0 SS a Ia). pose proof (sorted_first ks k0 SS b Ib). unfold duration. cbn [hd]. lia. }
  destruct (finish_cases p e0 (e1 :: l) rs PP RI) as [(X & _)|(_ & clk & ties & E & _)]; [congruence|]. exists clk, ties. exact E.
Qed.
Print Assumptions C72_recovers.
(** A case: five edges over seven symbols with jitter of 3 % of a period, and a
    period given 0.5 % off. *)
Definition wobbly : list R := [3 / 100; 1 - 3 / 100; 3 + 2 / 100; 4; 7 - 1 / 100].
Example C72_met : exists clk ties, run Int_part insertion_sort 1000000 true false (Some (1005 / 1000)) wobbly true = Ok (clk, ties)
  /\ (7 <= Z.of_nat (length clk) <= 8)%Z /\ forall i c, nth_error clk i = Some c -> Rabs (c - (INR i + 1 / 2)) < 1 / 4.
Proof.
  assert (JT : jittered (3 / 100) 0 1 wobbly [0; 1; 3; 4; 7]%Z) by (unfold jittered, wobbly; repeat (apply Forall2_cons; [apply Rabs_le; lra|]); apply Forall2_nil).
  assert (SS : StronglySorted Z.lt [0; 1; 3; 4; 7]%Z) by (repeat constructor). assert (GA : gaps_at_most 20 [0; 1; 3; 4; 7]%Z) by (cbn; lia).
  destruct (C72_recovers insertion_sort 1000000 true (1005 / 1000) 1 (3 / 100) 0 (7 / 4) wobbly [0; 1; 3; 4; 7]%Z true insertion_sorts) as (clk & ties & E); try assumption; try lia; try lra; [cbn; lia|cbn; lra|cbn; lia|].
  exists clk, ties. split; [exact E|].
  destruct (C72_clock insertion_sort 1000000 true (1005 / 1000) 1 (3 / 100) 0 (7 / 4) wobbly [0; 1; 3; 4; 7]%Z true clk ties insertion_sorts) as (_ & LN & CL & _); try assumption; try lia; try lra; [cbn; lra|].
  split; [cbn in LN; lia|]. intros i c Q. specialize (CL i c Q). cbn [hd] in CL. replace (0 + (0 + INR i + 1 / 2) * 1) with (INR i + 1 / 2) in CL by ring. lra.
Qed.
