(** Theorems about sinc interpolation, clock generation, Gaussian functions and
    exponential bins. *)
From Coq Require Import ZArith Reals Bool List Lia Lra Permutation Sorted.
Import ListNotations.
From Verif Require Import Base Num RBool StatsModel StatsSpec StatsProofs MathModel MathSpec MathProofs GaussProofs BinExpProofs.
From Verif Require CdrModel CdrSpec CdrProofs CdrProps.
Local Open Scope R_scope.

(** *** C51: sinc interpolation *)
(** At regular sample positions the samples themselves come back. *)
Theorem C51_samples : forall start step y, step <> 0 -> (2 <= length y)%nat ->
  sinc (grid start step (length y)) (vector (grid start step (length y))) (vector y) = Ok y.
Proof.
  intros start step y S0 L. assert (LG : length (grid start step (length y)) = length y) by (unfold grid; rewrite map_length, seq_length; reflexivity).
  assert (N0 : nth 0 (grid start step (length y)) 0 = start + INR 0 * step /\ nth 1 (grid start step (length y)) 0 = start + INR 1 * step) by (destruct y as [|a [|b y]]; cbn [length] in L; try lia; split; reflexivity).
  destruct N0 as (N0 & N1). rewrite sinc_eq; [|exact LG|lia|rewrite N0, N1; cbn; lra]. f_equal. rewrite N0, N1.
  replace (start + INR 1 * step - (start + INR 0 * step)) with step by (cbn; ring). unfold grid at 2. rewrite map_map. transitivity (map (fun j => nth j y 0) (seq 0 (length y))); [|apply map_nth_seq]. apply map_ext_in. intros j J. apply in_seq in J.
  unfold grid. rewrite (curve_grid start step S0 y 0 (start + INR j * step) j eq_refl). cbn [Nat.leb]. rewrite Nat.sub_0_r. reflexivity.
Qed.
Print Assumptions C51_samples.
(** Beyond the samples, on the same grid, the curve is 0; between them it is
    continuous, bounded by the sum of the magnitudes, and away from the sample
    positions the sum of scaled sines. *)
Theorem C51_curve : forall xs ys, length xs = length ys -> (2 <= length xs)%nat -> nth 0 xs 0 <> nth 1 xs 0 ->
  exists f, continuity f /\ (forall x, sinc x (vector xs) (vector ys) = Ok (map f x))
    /\ (forall t, Rabs (f t) <= total (map Rabs ys))
    /\ (forall t, (forall p, In p xs -> t <> p) ->
          f t = total (map (fun q => snd q * (sin (PI * ((t - fst q) / (nth 1 xs 0 - nth 0 xs 0))) / (PI * ((t - fst q) / (nth 1 xs 0 - nth 0 xs 0))))) (combine xs ys)))
    /\ (forall start step j, step <> 0 -> xs = grid start step (length xs) -> (length xs <= j)%nat -> f (start + INR j * step) = 0).
Proof.
  intros xs ys L N D. set (p := nth 1 xs 0 - nth 0 xs 0). exists (curve xs ys p). split; [apply curve_continuous|]. split; [intros x; apply sinc_eq; assumption|]. split; [intros t; apply curve_bound|]. split.
  - intros t T. assert (P0 : p <> 0) by (unfold p; lra). clearbody p. clear L N D. revert ys. induction xs as [|x xs IH]; intros [|y ys]; try reflexivity.
    rewrite curve_cons. cbn [combine map fst snd]. rewrite total_cons. rewrite IH by (intros q Q; apply T; right; exact Q). f_equal. f_equal. unfold np_sinc.
    rewrite (proj2 (Reqb_false _ 0)); [reflexivity|]. intros Q. apply (T x); [left; reflexivity|]. unfold Rdiv in Q. apply Rmult_integral in Q. destruct Q as [Q|Q]; [lra|]. exfalso. exact (Rinv_neq_0_compat p P0 Q).
  - intros start step j S0 E J. assert (PS : p = step).
    { unfold p. rewrite E. destruct xs as [|a [|b xs]]; cbn [length] in N; try lia. cbn. ring. }
    rewrite PS, E, L. unfold grid. rewrite (curve_grid start step S0 ys 0 _ j eq_refl). cbn [Nat.leb]. apply nth_overflow. lia.
Qed.
Print Assumptions C51_curve.
Theorem C51_linear : forall a b x xs ys zs, length xs = length ys -> length xs = length zs -> (2 <= length xs)%nat -> nth 0 xs 0 <> nth 1 xs 0 ->
  exists u v, sinc x (vector xs) (vector ys) = Ok u /\ sinc x (vector xs) (vector zs) = Ok v
    /\ sinc x (vector xs) (vector (combination a b ys zs)) = Ok (combination a b u v).
Proof.
  intros a b x xs ys zs LY LZ N D. rewrite !sinc_eq; try assumption; [|unfold combination; rewrite map_length, combine_length; lia].
  do 2 eexists. split; [reflexivity|]. split; [reflexivity|]. f_equal. unfold combination at 2. induction x as [|t x IH]; [reflexivity|]. cbn [map combine fst snd]. rewrite IH. f_equal. apply curve_linear. lia.
Qed.
Print Assumptions C51_linear.
(** Moving or stretching the time axis changes nothing. *)
Theorem C51_time_axis : forall c d x xs ys, c <> 0 -> length xs = length ys -> (2 <= length xs)%nat -> nth 0 xs 0 <> nth 1 xs 0 ->
  sinc (map (fun t => c * t + d) x) (vector (map (fun t => c * t + d) xs)) (vector ys) = sinc x (vector xs) (vector ys).
Proof.
  intros c d x xs ys C L N D. assert (E : forall i, (i < length xs)%nat -> nth i (map (fun t => c * t + d) xs) 0 = c * nth i xs 0 + d).
  { intros i I. rewrite (nth_indep _ 0 (c * 0 + d)) by (rewrite map_length; exact I). apply (map_nth (fun t => c * t + d)). }
  rewrite (sinc_eq (map (fun t => c * t + d) x)); [|rewrite map_length; exact L|rewrite map_length; exact N|rewrite !E by lia; intros Q; apply D; apply (Rmult_eq_reg_l c); [lra|exact C]].
  rewrite sinc_eq by assumption. f_equal. rewrite map_map. apply map_ext. intros t. rewrite !E by lia. replace (c * nth 1 xs 0 + d - (c * nth 0 xs 0 + d)) with (c * (nth 1 xs 0 - nth 0 xs 0)) by ring. apply curve_move. exact C.
Qed.
Print Assumptions C51_time_axis.
(** ValueError exactly for arguments that are no vectors of one length of at
    least 2. *)
Theorem C51_rejects : forall x xp yp, proper xp -> proper yp ->
  (sinc x xp yp = Err ValueError <-> ~ (exists n, (2 <= n)%Z /\ shape xp = [n] /\ shape yp = [n])).
Proof.
  intros x xp yp PX PY. unfold sinc. destruct (shape xp) as [|n [|m s]] eqn:SX; cbn [length Nat.eqb negb].
  - split; [|reflexivity]. intros _ (n & _ & Q & _). discriminate Q.
  - destruct (list_eq_dec Z.eq_dec [n] (shape yp)) as [E|E]; cbn [negb].
    + cbn [hd]. destruct (n <? 2)%Z eqn:N; [apply Z.ltb_lt in N | apply Z.ltb_ge in N].
      * split; [|reflexivity]. intros _ (k & K & Q & _). injection Q as <-. lia.
      * split; [|intros Q; exfalso; apply Q; exists n; auto]. unfold proper in PX. rewrite SX in PX. cbn [fold_right] in PX. rewrite Z.mul_1_r in PX.
        destruct (elements xp) as [|x0 [|x1 l]]; cbn [length] in PX; try lia. cbn [get nth_error bind]. destruct (Reqb (x1 - x0) 0); discriminate.
    + split; [|reflexivity]. intros _ (k & K & Q & Q'). congruence.
  - split; [|reflexivity]. intros _ (k & _ & Q & _). discriminate Q.
Qed.
Print Assumptions C51_rejects.
Example C51_example : sinc [5; 7; 9; 11] (vector [5; 7; 9]) (vector [1; -3; 4]) = Ok [1; -3; 4; 0].
Proof.
  pose proof (C51_samples 5 2 [1; -3; 4] ltac:(lra) ltac:(cbn; lia)) as E.
  destruct (C51_curve [5; 7; 9] [1; -3; 4]) as (f & _ & F & _ & _ & G); [reflexivity|cbn; lia|cbn; lra|].
  assert (EG : grid 5 2 (length [1; -3; 4]) = [5; 7; 9]) by (unfold grid; cbn; repeat f_equal; ring). rewrite EG, F in E. rewrite F. injection E as E1 E2 E3. cbn [map]. rewrite E1, E2, E3. repeat f_equal.
  replace 11 with (5 + INR 3 * 2) by (cbn; ring). apply (G 5 2 3%nat); [lra|unfold grid; cbn; repeat f_equal; ring|cbn; lia].
Qed.

Lemma abs_between x a : Rabs x <= a -> - a <= x <= a.
Proof. intros H. pose proof (Rle_abs x). pose proof (Rle_abs (- x)). rewrite Rabs_Ropp in *  . lra. Qed.
(** *** C53: clock generation *)
Theorem C53_edges : forall normal uniform phase t_sym t_rj t_uj t_sj f_sj dcd n, (0 <= n)%Z -> 0 <= t_rj -> 0 <= t_uj -> draws_normal normal -> draws_uniform uniform ->
  exists l, edges normal uniform phase t_sym t_rj t_uj t_sj f_sj dcd n = Ok l /\ length l = Z.to_nat n
    /\ forall i, (i < Z.to_nat n)%nat -> exists e g u, nth_error l i = Some e
         /\ nth_error (normal 0 t_rj (Z.to_nat n)) i = Some g /\ Rabs u <= t_uj / 2
         /\ e = INR i * t_sym + t_sj * sin (2 * PI * f_sj * (INR i * t_sym) + phase 0 (2 * PI)) + (if Nat.even i then dcd * t_sym else 0) + g + u
         /\ Rabs (e - INR i * t_sym) <= Rabs t_sj + (if Nat.even i then Rabs (dcd * t_sym) else 0) + Rabs g + t_uj / 2.
Proof.
  intros normal uniform phase t_sym t_rj t_uj t_sj f_sj dcd n N RJ UJ DN DU. destruct (edges_eq normal uniform phase t_sym t_rj t_uj t_sj f_sj dcd n N RJ UJ DN DU) as (l & E & L & V).
  exists l. split; [exact E|]. split; [exact L|]. intros i I. destruct (V i I) as (g & u & G & _ & U & EI). assert (AU : Rabs u <= t_uj / 2) by (apply Rabs_le; lra).
  eexists. exists g, u. split; [exact EI|]. split; [exact G|]. split; [exact AU|]. split; [ring|]. set (s := sin _). assert (SB : Rabs (s * t_sj) <= Rabs t_sj).
  { rewrite Rabs_mult. rewrite <- (Rmult_1_l (Rabs t_sj)) at 2. apply Rmult_le_compat_r; [apply Rabs_pos|]. apply Rabs_le. pose proof (SIN_bound (2 * PI * f_sj * (INR i * t_sym) + phase 0 (2 * PI))). unfold s. lra. }
  destruct (Nat.even i).
  - replace (INR i * t_sym + s * t_sj + dcd * t_sym + g + u - INR i * t_sym) with (s * t_sj + dcd * t_sym + g + u) by ring.
    pose proof (Rabs_triang (s * t_sj + dcd * t_sym + g) u). pose proof (Rabs_triang (s * t_sj + dcd * t_sym) g). pose proof (Rabs_triang (s * t_sj) (dcd * t_sym)). lra.
  - replace (INR i * t_sym + s * t_sj + 0 + g + u - INR i * t_sym) with (s * t_sj + g + u) by ring.
    pose proof (Rabs_triang (s * t_sj + g) u). pose proof (Rabs_triang (s * t_sj) g). lra.
Qed.
Print Assumptions C53_edges.
(** The edges stay in order while all jitter together is below a symbol. *)
Theorem C53_ordered : forall normal uniform phase t_sym t_rj t_uj t_sj f_sj dcd n r l, (0 <= n)%Z -> 0 <= t_rj -> 0 <= t_uj -> draws_normal normal -> draws_uniform uniform ->
  (forall g, In g (normal 0 t_rj (Z.to_nat n)) -> Rabs g <= r) ->
  2 * Rabs t_sj + Rabs (dcd * t_sym) + 2 * r + t_uj < t_sym ->
  edges normal uniform phase t_sym t_rj t_uj t_sj f_sj dcd n = Ok l ->
  forall i j a b, (i < j)%nat -> nth_error l i = Some a -> nth_error l j = Some b -> a < b.
Proof.
  intros normal uniform phase t_sym t_rj t_uj t_sj f_sj dcd n r l N RJ UJ DN DU GR ST EQ i j a b IJ A B.
  destruct (C53_edges normal uniform phase t_sym t_rj t_uj t_sj f_sj dcd n N RJ UJ DN DU) as (l' & E & L & V). rewrite EQ in E. injection E as <-.
  assert (I : (i < Z.to_nat n)%nat) by (rewrite <- L; apply nth_error_Some; rewrite A; discriminate). assert (J : (j < Z.to_nat n)%nat) by (rewrite <- L; apply nth_error_Some; rewrite B; discriminate).
  destruct (V i I) as (e1 & g1 & u1 & E1 & G1 & U1 & F1 & _). destruct (V j J) as (e2 & g2 & u2 & E2 & G2 & U2 & F2 & _). rewrite A in E1. injection E1 as <-. rewrite B in E2. injection E2 as <-.
  apply nth_error_In, GR in G1. apply nth_error_In, GR in G2. set (s1 := sin (2 * PI * f_sj * (INR i * t_sym) + phase 0 (2 * PI))) in *  . set (s2 := sin (2 * PI * f_sj * (INR j * t_sym) + phase 0 (2 * PI))) in *  .
  assert (SB : forall x, Rabs (t_sj * sin x) <= Rabs t_sj).
  { intros x. rewrite Rabs_mult. rewrite <- (Rmult_1_r (Rabs t_sj)) at 2. apply Rmult_le_compat_l; [apply Rabs_pos|]. apply Rabs_le. pose proof (SIN_bound x). lra. }
  pose proof (SB (2 * PI * f_sj * (INR i * t_sym) + phase 0 (2 * PI))) as S1. pose proof (SB (2 * PI * f_sj * (INR j * t_sym) + phase 0 (2 * PI))) as S2. fold s1 in S1. fold s2 in S2.
  assert (IJR : INR i + 1 <= INR j) by (rewrite <- S_INR; apply le_INR; lia). pose proof (Rabs_pos t_sj). pose proof (Rabs_pos (dcd * t_sym)).
  assert (T0 : 0 < t_sym) by (pose proof (Rabs_pos g1); lra). assert (STEP : INR i * t_sym + t_sym <= INR j * t_sym) by (replace (INR i * t_sym + t_sym) with ((INR i + 1) * t_sym) by ring; apply Rmult_le_compat_r; lra).
  apply abs_between in S1. apply abs_between in S2. apply abs_between in G1. apply abs_between in G2. apply abs_between in U1. apply abs_between in U2.
  assert (DB : - Rabs (dcd * t_sym) <= dcd * t_sym <= Rabs (dcd * t_sym)) by (apply abs_between; apply Rle_refl).
  rewrite F1, F2. destruct (Nat.even i), (Nat.even j); lra.
Qed.
Print Assumptions C53_ordered.
Theorem C53_rejects : forall normal uniform phase t_sym t_rj t_uj t_sj f_sj dcd n, (n < 0)%Z \/ t_rj < 0 ->
  edges normal uniform phase t_sym t_rj t_uj t_sj f_sj dcd n = Err ValueError.
Proof.
  intros. unfold edges. destruct (n <? 0)%Z eqn:E; [reflexivity|]. apply Z.ltb_ge in E. destruct H as [H|H]; [lia|]. rewrite (proj2 (Rltb_true t_rj 0) H). reflexivity.
Qed.
Print Assumptions C53_rejects.
Lemma clean_edges normal uniform phase t_sym f_sj n : (0 <= n)%Z -> draws_uniform uniform -> (forall k, normal 0 0 k = repeat 0 k) ->
  edges normal uniform phase t_sym 0 0 0 f_sj 0 n = Ok (grid 0 t_sym (Z.to_nat n)).
Proof.
  intros N DU DN. assert (DN' : draws_normal (fun m s k => match normal m s k with l => if (length l =? k)%nat then l else repeat 0 k end)).
  { intros m s k. destruct (length (normal m s k) =? k)%nat eqn:E; [apply Nat.eqb_eq; exact E|apply repeat_length]. }
  assert (SAME : edges normal uniform phase t_sym 0 0 0 f_sj 0 n = edges (fun m s k => match normal m s k with l => if (length l =? k)%nat then l else repeat 0 k end) uniform phase t_sym 0 0 0 f_sj 0 n).
  { unfold edges. rewrite DN, repeat_length, Nat.eqb_refl. reflexivity. }
  rewrite SAME. destruct (edges_eq _ uniform phase t_sym 0 0 0 f_sj 0 n N (Rle_refl 0) (Rle_refl 0) DN' DU) as (l & E & L & V). rewrite E. f_equal.
  apply (nth_ext _ _ 0 0); [unfold grid; rewrite map_length, seq_length; exact L|]. intros i I. rewrite L in I. destruct (V i I) as (g & u & G & _ & U & EI). cbv beta in G. rewrite DN, repeat_length, Nat.eqb_refl in G.
  apply nth_error_In, repeat_spec in G. subst g. rewrite (nth_error_nth l i 0 EI). unfold grid. rewrite (nth_indep _ 0 (0 + INR 0 * t_sym)) by (rewrite map_length, seq_length; exact I).
  rewrite (map_nth (fun i => 0 + INR i * t_sym)), seq_nth by exact I. cbn [Nat.add]. assert (u = 0) by lra. subst u. destruct (Nat.even i); ring.
Qed.
(** Without jitter the edges are exactly the symbol boundaries, and clock data
    recovery finds the clock again from a guess within 1 %. *)
Theorem C53_recovered : forall normal uniform phase sort n_comp compiled t_sym guess f_sj n,
  draws_uniform uniform -> (forall k, normal 0 0 k = repeat 0 k) -> CdrSpec.sorts sort -> (200000 <= n_comp)%Z ->
  0 < guess <= 90000 -> 99 / 100 * guess <= t_sym <= 101 / 100 * guess -> (2 <= n <= 90001)%Z ->
  exists l ties, edges normal uniform phase t_sym 0 0 0 f_sj 0 n = Ok l
    /\ l = grid 0 t_sym (Z.to_nat n)
    /\ CdrModel.run Int_part sort n_comp compiled false (Some guess) l true = Ok (grid (t_sym / 2) t_sym (Z.to_nat (n - 1)), ties)
    /\ forall x, In x ties -> x = 0.
Proof.
  intros normal uniform phase sort nc compiled t_sym guess f_sj n DU DN SO NC G T N. rewrite (clean_edges normal uniform phase t_sym f_sj n ltac:(lia) DU DN).
  set (m := Z.to_nat n). set (numbers := map Z.of_nat (seq 0 m)).
  assert (LN : length numbers = m) by (unfold numbers; rewrite map_length, seq_length; reflexivity).
  assert (HD : hd 0%Z numbers = 0%Z) by (unfold numbers; destruct m as [|k] eqn:Q; [unfold m in Q; lia|reflexivity]).
  assert (LST : last numbers 0%Z = (n - 1)%Z).
  { unfold numbers. replace m with (Z.to_nat (n - 1) + 1)%nat by (unfold m; lia). rewrite seq_app, map_app. cbn [seq map]. rewrite last_last. lia. }
  destruct (CdrProps.C44_recovers sort nc compiled 0 t_sym guess numbers true SO NC) as (ties & E & Z0).
  - exact G.
  - exact T.
  - rewrite LN. unfold m. lia.
  - apply CdrProps.consecutive.
  - apply CdrProps.consecutive.
  - rewrite HD, LST. lia.
  - rewrite HD, LST, LN, INR_IZR_INZ. unfold m. rewrite Z2Nat.id by lia. rewrite Z.sub_0_r, minus_IZR. replace ((IZR n - 1) / (IZR n - 1)) with 1 by (field; assert (2 <= IZR n) by (apply IZR_le; lia); lra). lra.
  - exists (grid 0 t_sym m), ties. split; [reflexivity|]. split; [reflexivity|]. split; [|exact Z0]. rewrite HD, LST in E.
    assert (EG : CdrSpec.ideal 0 t_sym numbers = grid 0 t_sym m) by (unfold CdrSpec.ideal, numbers, grid; rewrite map_map; apply map_ext; intros i; rewrite <- INR_IZR_INZ; ring).
    rewrite EG in E. rewrite E. f_equal. f_equal. unfold grid. rewrite Z.sub_0_r. apply map_ext. intros i. change (IZR 0) with 0. ring.
Qed.
Print Assumptions C53_recovered.
Definition midpoint (a b : R) (n : nat) : list R := repeat ((a + b) / 2) n.
Example C53_example : draws_normal midpoint /\ draws_uniform midpoint
  /\ edges midpoint midpoint (fun a _ => a) 10 2 4 0 0 (1 / 10) 3 = Ok [2; 11; 22].
Proof.
  assert (DN : draws_normal midpoint) by (intros m s k; apply repeat_length).
  assert (DU : draws_uniform midpoint) by (intros a b k AB; split; [apply repeat_length|intros x X; apply repeat_spec in X; subst x; lra]).
  split; [exact DN|]. split; [exact DU|]. unfold edges. change (3 <? 0)%Z with false. rewrite (proj2 (Rltb_false 2 0)) by lra. cbv iota zeta. f_equal.
  change (Z.to_nat 3) with 3%nat. unfold midpoint, add. cbn [linspace]. cbn -[Rmult Rplus sin IZR]. repeat f_equal; cbn [nofZ nmul nadd nsub ndiv NumR]; field.
Qed.
