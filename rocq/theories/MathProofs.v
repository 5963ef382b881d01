(** Lemmas about sinc interpolation and clock generation. *)
From Coq Require Import ZArith Reals Bool List Lia Lra.
Import ListNotations.
From Verif Require Import Base Num RBool StatsModel MathModel MathSpec CdrRunProofs.
Local Open Scope R_scope.

Lemma rsum_total l : rsum l = total l.
Proof.
  unfold rsum. assert (G : forall l a, fold_left Rplus l a = a + total l); [|rewrite G; ring].
  clear. induction l as [|x l IH]; intros a; cbn [fold_left total fold_right]; [ring|]. rewrite IH. unfold total. ring.
Qed.
Lemma total_cons x l : total (x :: l) = x + total l.
Proof. reflexivity. Qed.
Lemma total_app a b : total (a ++ b) = total a + total b.
Proof. induction a as [|x a IH]; [cbn [app]; change (total []) with 0; ring|]. cbn [app]. rewrite !total_cons, IH. ring. Qed.
Lemma dot_total a b : dot a b = total (map (fun p => fst p * snd p) (combine a b)).
Proof. apply rsum_total. Qed.
Lemma dot_cons x a y b : dot (x :: a) (y :: b) = x * y + dot a b.
Proof. rewrite !dot_total. reflexivity. Qed.
Lemma dot_nil b : dot [] b = 0.
Proof. reflexivity. Qed.

(** *** sinc *)
Lemma np_sinc_Z k : np_sinc (IZR k) = if Z.eq_dec k 0 then 1 else 0.
Proof.
  unfold np_sinc. destruct (Reqb (IZR k) 0) eqn:E; [apply Reqb_true in E | apply Reqb_false in E]; destruct (Z.eq_dec k 0) as [->|N]; try reflexivity.
  - apply eq_IZR in E. congruence.
  - congruence.
  - rewrite (sin_eq_0_1 (PI * IZR k)); [unfold Rdiv; ring|]. exists k. ring.
Qed.
Lemma np_sinc_bound u : Rabs (np_sinc u) <= 1.
Proof.
  unfold np_sinc. destruct (Reqb u 0) eqn:E; [rewrite Rabs_R1; lra|apply Reqb_false in E].
  pose proof PI_RGT_0 as P. assert (G : forall t, t <> 0 -> Rabs (sin t / t) <= 1).
  { assert (G : forall t, 0 < t -> Rabs (sin t / t) <= 1).
    { intros t T. unfold Rdiv. rewrite Rabs_mult, (Rabs_right (/ t)) by (left; apply Rinv_0_lt_compat; exact T).
      apply (Rmult_le_reg_r t); [exact T|]. rewrite Rmult_assoc, Rinv_l by lra. rewrite Rmult_1_r, Rmult_1_l.
      apply Rabs_le. pose proof (sin_lt_x t T). split; [|lra].
      destruct (Rle_or_lt 1 t) as [T1|T1]; [pose proof (SIN_bound t); lra|]. pose proof (sin_ge_0 t ltac:(lra)) as SG.
      assert (t <= PI) by (pose proof PI2_3_2; unfold PI in *  ; lra). specialize (SG H0). lra. }
    intros t T. destruct (Rlt_or_le 0 t) as [L|L]; [exact (G t L)|].
    replace (sin t / t) with (sin (- t) / (- t)); [apply G; lra|]. rewrite sin_neg. field. exact T. }
  apply G. intros Z0. apply Rmult_integral in Z0. destruct Z0; lra.
Qed.
Lemma np_sinc_continuous : continuity np_sinc.
Proof.
  intros u. pose proof PI_RGT_0 as P. destruct (Req_dec u 0) as [->|N].
  - intros eps EP. destruct (derivable_pt_lim_sin_0 eps EP) as (d & D).
    exists (d / PI). split; [apply Rlt_gt, Rdiv_lt_0_compat; [apply cond_pos|exact P]|].
    intros x ((_ & NX) & DX). cbn [dist R_met Base] in *  . unfold R_dist in *  . rewrite Rminus_0_r in DX.
    unfold np_sinc. rewrite (proj2 (Reqb_false x 0)) by (intros ->; congruence). rewrite (proj2 (Reqb_true 0 0)) by reflexivity.
    assert (H : PI * x <> 0) by (intros Q; apply Rmult_integral in Q; destruct Q; [lra|congruence]).
    specialize (D (PI * x) H). rewrite Rplus_0_l, sin_0, Rminus_0_r in D. apply D.
    rewrite Rabs_mult, (Rabs_right PI) by lra. apply (Rmult_lt_compat_l PI) in DX; [|exact P]. replace (PI * (d / PI)) with (pos d) in DX by (field; lra). exact DX.
  - apply (continuity_pt_locally_ext (fun x => sin (PI * x) / (PI * x)) _ (Rabs u) u).
    + apply Rabs_pos_lt. exact N.
    + intros y D. unfold np_sinc. rewrite (proj2 (Reqb_false y 0)); [reflexivity|]. intros ->. unfold R_dist in D. rewrite Rminus_0_l, Rabs_Ropp in D. lra.
    + apply (continuity_pt_div (fun x => sin (PI * x)) (fun x => PI * x)).
      * apply (continuity_pt_comp (fun x => PI * x) sin); [apply continuity_pt_scal, (derivable_continuous_pt id), derivable_pt_id|apply continuity_sin].
      * apply continuity_pt_scal, (derivable_continuous_pt id), derivable_pt_id.
      * intros Q. apply Rmult_integral in Q. destruct Q; [lra|congruence].
Qed.
(** The curve through the samples *)
Definition curve (xp yp : list R) (period t : R) : R := dot yp (map (fun p => np_sinc ((t - p) / period)) xp).
Lemma curve_cons x xp y yp period t : curve (x :: xp) (y :: yp) period t = y * np_sinc ((t - x) / period) + curve xp yp period t.
Proof. unfold curve. cbn [map]. apply dot_cons. Qed.
Lemma curve_continuous xp : forall yp period, continuity (curve xp yp period).
Proof.
  induction xp as [|x xp IH]; intros [|y yp] period.
  1-3: intros t; apply (continuity_pt_locally_ext (fun _ => 0) _ 1 t); [lra|intros; reflexivity|apply continuity_pt_const; intros ? ?; reflexivity].
  intros t. apply (continuity_pt_locally_ext (fun t => y * np_sinc ((t - x) * / period) + curve xp yp period t) _ 1 t); [lra|intros; symmetry; apply curve_cons|].
  apply continuity_pt_plus; [|apply IH]. apply continuity_pt_scal.
  apply (continuity_pt_comp (fun t => (t - x) * / period) np_sinc); [|apply np_sinc_continuous].
  apply derivable_continuous_pt. reg.
Qed.
Lemma sinc_eq x xs ys : length xs = length ys -> (2 <= length xs)%nat -> nth 0 xs 0 <> nth 1 xs 0 ->
  sinc x (vector xs) (vector ys) = Ok (map (curve xs ys (nth 1 xs 0 - nth 0 xs 0)) x).
Proof.
  intros L N D. unfold sinc, vector. cbn [shape elements length Nat.eqb negb hd].
  destruct (list_eq_dec Z.eq_dec [Z.of_nat (length xs)] [Z.of_nat (length ys)]) as [_|Q]; [|rewrite L in Q; congruence]. cbn [negb].
  replace (Z.of_nat (length xs) <? 2)%Z with false by (symmetry; apply Z.ltb_ge; lia).
  destruct xs as [|x0 [|x1 xs]]; cbn [length] in N; try lia. cbn [get nth_error bind nth] in *  . cbn [bind].
  rewrite (proj2 (Reqb_false (x1 - x0) 0)) by lra. reflexivity.
Qed.
Lemma curve_grid start step : step <> 0 -> forall ys k t j, t = start + INR j * step ->
  curve (map (fun i => start + INR i * step) (seq k (length ys))) ys step t = if (k <=? j)%nat then nth (j - k) ys 0 else 0.
Proof.
  intros S0. induction ys as [|y ys IH]; intros k t j T.
  - unfold curve. rewrite dot_nil. destruct (k <=? j)%nat; [destruct (j - k)%nat; reflexivity|reflexivity].
  - cbn [length seq map]. rewrite curve_cons, (IH (S k) t j T). rewrite T.
    replace ((start + INR j * step - (start + INR k * step)) / step) with (IZR (Z.of_nat j - Z.of_nat k)) by (rewrite minus_IZR, <- !INR_IZR_INZ; field; exact S0).
    rewrite np_sinc_Z. destruct (Z.eq_dec (Z.of_nat j - Z.of_nat k) 0) as [E|E].
    + assert (j = k) by lia. subst j. rewrite Nat.leb_refl, Nat.sub_diag. replace (S k <=? k)%nat with false by (symmetry; apply Nat.leb_gt; lia). cbn [nth]. ring.
    + destruct (k <=? j)%nat eqn:C; [apply Nat.leb_le in C | apply Nat.leb_gt in C].
      * replace (S k <=? j)%nat with true by (symmetry; apply Nat.leb_le; lia). replace (j - k)%nat with (S (j - S k)) by lia. cbn [nth]. ring.
      * replace (S k <=? j)%nat with false by (symmetry; apply Nat.leb_gt; lia). ring.
Qed.
Lemma map_nth_seq (l : list R) : map (fun j => nth j l 0) (seq 0 (length l)) = l.
Proof.
  induction l as [|x l IH]; [reflexivity|]. cbn [length seq map]. f_equal. rewrite <- seq_shift, map_map. exact IH.
Qed.
Lemma curve_linear a b xs : forall ys zs period t, length ys = length zs ->
  curve xs (combination a b ys zs) period t = a * curve xs ys period t + b * curve xs zs period t.
Proof.
  induction xs as [|x xs IH]; intros ys zs period t L.
  - unfold curve. rewrite !dot_total. cbn [map]. destruct (combination a b ys zs), ys, zs; cbn; ring.
  - destruct ys as [|y ys], zs as [|z zs]; cbn [length] in L; try lia; [unfold curve; rewrite !dot_total; cbn; ring|].
    unfold combination. cbn [combine map fst snd]. rewrite !curve_cons. fold (combination a b ys zs). rewrite (IH ys zs) by lia. ring.
Qed.
Lemma curve_bound xs : forall ys period t, Rabs (curve xs ys period t) <= total (map Rabs ys).
Proof.
  induction xs as [|x xs IH]; intros ys period t.
  - unfold curve. rewrite dot_total. assert (Z0 : map (fun p : R * R => fst p * snd p) (combine ys (map (fun p => np_sinc ((t - p) / period)) [])) = []) by (destruct ys; reflexivity).
    rewrite Z0. cbn. rewrite Rabs_R0. clear. induction ys as [|y ys IH]; cbn; [lra|]. pose proof (Rabs_pos y). unfold total in IH. lra.
  - destruct ys as [|y ys]; [unfold curve; rewrite dot_nil, Rabs_R0; cbn; lra|]. rewrite curve_cons. eapply Rle_trans; [apply Rabs_triang|]. cbn [map]. rewrite total_cons.
    apply Rplus_le_compat; [|apply IH]. rewrite Rabs_mult. rewrite <- (Rmult_1_r (Rabs y)) at 2. apply Rmult_le_compat_l; [apply Rabs_pos|apply np_sinc_bound].
Qed.
Lemma curve_move d c xs : c <> 0 -> forall ys period t,
  curve (map (fun x => c * x + d) xs) ys (c * period) (c * t + d) = curve xs ys period t.
Proof.
  intros C. induction xs as [|x xs IH]; intros [|y ys] period t; try reflexivity. cbn [map]. rewrite !curve_cons, IH. f_equal. f_equal. f_equal.
  unfold Rdiv. rewrite Rinv_mult. replace (c * t + d - (c * x + d)) with (c * (t - x)) by ring.
  replace (c * (t - x) * (/ c * / period)) with (c * / c * ((t - x) * / period)) by ring. rewrite Rinv_r by exact C. ring.
Qed.

(** *** clock *)
Lemma add_even_nth d : forall l i, nth_error (add_even d l) i = match nth_error l i with Some a => Some (if Nat.even i then a + d else a) | None => None end.
Proof.
  fix IH 1. intros l i. destruct l as [|a [|b l]].
  - destruct i; reflexivity.
  - destruct i as [|[|i]]; reflexivity.
  - destruct i as [|[|i]]; [reflexivity|reflexivity|]. cbn [add_even nth_error Nat.even]. apply IH.
Qed.
Lemma add_nth a : forall b i x y, nth_error a i = Some x -> nth_error b i = Some y -> nth_error (add a b) i = Some (x + y).
Proof.
  induction a as [|u a IH]; intros [|v b] [|i] x y X Y; try discriminate; cbn in *  .
  - injection X as <-. injection Y as <-. reflexivity.
  - exact (IH b i x y X Y).
Qed.
Lemma add_length a b : length a = length b -> length (add a b) = length a.
Proof. intros L. unfold add. rewrite map_length, combine_length. lia. Qed.
Lemma add_even_length d : forall l, length (add_even d l) = length l.
Proof. fix IH 1. intros [|a [|b l]]; [reflexivity|reflexivity|]. cbn [add_even length]. rewrite IH. reflexivity. Qed.
Lemma nth_error_seq_map {X} (f : nat -> X) n i : (i < n)%nat -> nth_error (map f (seq 0 n)) i = Some (f i).
Proof.
  intros L. rewrite (nth_error_nth' _ (f O)) by (rewrite map_length, seq_length; exact L). rewrite map_nth, seq_nth by exact L. reflexivity.
Qed.
Lemma edges_eq normal uniform phase t_sym t_rj t_uj t_sj f_sj dcd n : (0 <= n)%Z -> 0 <= t_rj -> 0 <= t_uj -> draws_normal normal -> draws_uniform uniform ->
  exists l, edges normal uniform phase t_sym t_rj t_uj t_sj f_sj dcd n = Ok l /\ length l = Z.to_nat n
    /\ forall i, (i < Z.to_nat n)%nat -> exists g u, nth_error (normal 0 t_rj (Z.to_nat n)) i = Some g
         /\ nth_error (uniform (- t_uj / 2) (t_uj / 2) (Z.to_nat n)) i = Some u /\ - t_uj / 2 <= u <= t_uj / 2
         /\ nth_error l i = Some (INR i * t_sym + sin (2 * PI * f_sj * (INR i * t_sym) + phase 0 (2 * PI)) * t_sj + (if Nat.even i then dcd * t_sym else 0) + g + u).
Proof.
  intros N RJ UJ DN DU. unfold edges. rewrite (proj2 (Z.ltb_ge n 0)) by exact N. rewrite (proj2 (Rltb_false t_rj 0)) by exact RJ.
  rewrite linspace_steps by exact N. set (m := Z.to_nat n). eexists. split; [reflexivity|].
  specialize (DN 0 t_rj m). destruct (DU (- t_uj / 2) (t_uj / 2) m ltac:(lra)) as (LU & BU).
  set (e := map (fun t => t + sin (2 * PI * f_sj * t + phase 0 (2 * PI)) * t_sj) (map (fun i => IZR (Z.of_nat i) * t_sym) (seq 0 m))).
  assert (LE : length (add_even (dcd * t_sym) e) = m) by (rewrite add_even_length; unfold e; rewrite !map_length, seq_length; reflexivity).
  assert (LA : length (add (add_even (dcd * t_sym) e) (normal 0 t_rj m)) = m) by (rewrite add_length; lia).
  split; [rewrite add_length; lia|]. intros i I.
  destruct (nth_error (normal 0 t_rj m) i) as [g|] eqn:G; [|apply nth_error_None in G; lia].
  destruct (nth_error (uniform (- t_uj / 2) (t_uj / 2) m) i) as [u|] eqn:U; [|apply nth_error_None in U; lia].
  exists g, u. split; [reflexivity|]. split; [reflexivity|]. split; [apply BU; eapply nth_error_In; exact U|].
  eapply add_nth; [|exact U]. eapply add_nth; [|exact G]. rewrite add_even_nth. unfold e. rewrite map_map. rewrite (nth_error_seq_map (fun i : nat => IZR (Z.of_nat i) * t_sym + sin (2 * PI * f_sj * (IZR (Z.of_nat i) * t_sym) + phase 0 (2 * PI)) * t_sj)) by exact I.
  rewrite <- INR_IZR_INZ. destruct (Nat.even i); f_equal; ring.
Qed.
