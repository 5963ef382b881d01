From Coq Require Import List ZArith Bool Lia Permutation Reals Lra Psatz.
Import ListNotations.
From Verif Require Import Base Num RBool StatsModel.
Local Open Scope R_scope.

Lemma sq_sqrt x : 0 <= x -> sqrt x ^ 2 = x.
Proof. intros Hx. rewrite <- Rsqr_pow2. apply Rsqr_sqrt. exact Hx. Qed.

Lemma uadd_var a b : stddev (uadd a (OU b)) ^ 2 = stddev a ^ 2 + stddev b ^ 2.
Proof. cbn [uadd stddev]. apply sq_sqrt. nra. Qed.
Lemma usub_var a b : stddev (usub a (OU b)) ^ 2 = stddev a ^ 2 + stddev b ^ 2.
Proof. cbn [usub stddev]. apply sq_sqrt. nra. Qed.

Lemma uadd_comm a b : uadd a (OU b) = uadd b (OU a).
Proof. unfold uadd. f_equal; [ring|]. f_equal. ring. Qed.
Lemma uadd_assoc a b c : uadd (uadd a (OU b)) (OU c) = uadd a (OU (uadd b (OU c))).
Proof.
  unfold uadd. cbn [value stddev]. f_equal; [ring|]. rewrite !sq_sqrt by nra. f_equal. ring.
Qed.
Lemma usub_uadd a b : usub a (OU b) = uadd a (OU (umul b (ON (-1)))).
Proof.
  unfold usub, uadd, umul. cbn [value stddev]. f_equal; [ring|]. f_equal.
  replace (Rabs (-1)) with 1; [ring|]. rewrite Rabs_left by lra. ring.
Qed.

Lemma umul_scale a k m : umul (umul a (ON k)) (ON m) = umul a (ON (k * m)).
Proof. unfold umul. cbn [value stddev]. rewrite Rabs_mult. f_equal; ring. Qed.
Lemma udiv_scale a k : k <> 0 -> udiv a (ON k) = umul a (ON (/ k)).
Proof. intros Hk. unfold udiv, umul. rewrite Rabs_inv. reflexivity. Qed.
Lemma udiv_umul a k : k <> 0 -> udiv (umul a (ON k)) (ON k) = a.
Proof.
  intros Hk. unfold udiv, umul. cbn [value stddev]. pose proof (Rabs_no_R0 k Hk).
  destruct a as [v s]; cbn [value stddev]. f_equal; field; assumption.
Qed.

Lemma Rabs_sq x : Rabs x ^ 2 = x ^ 2.
Proof. apply pow2_abs. Qed.

Lemma umul_rel a b : value a <> 0 -> value b <> 0 ->
  (stddev (umul a (OU b)) / value (umul a (OU b))) ^ 2 = (stddev a / value a) ^ 2 + (stddev b / value b) ^ 2.
Proof.
  intros Ha Hb. cbn [umul value stddev]. set (v := value a * value b).
  assert (Hv : v <> 0) by (apply Rmult_integral_contrapositive_currified; assumption).
  set (q := (stddev a / value a) ^ 2 + (stddev b / value b) ^ 2).
  assert (Hq : 0 <= q) by (unfold q; nra).
  unfold Rdiv. rewrite !Rpow_mult_distr, Rabs_sq, sq_sqrt by exact Hq. field. exact Hv.
Qed.
Lemma udiv_rel a b : value a <> 0 -> value b <> 0 ->
  (stddev (udiv a (OU b)) / value (udiv a (OU b))) ^ 2 = (stddev a / value a) ^ 2 + (stddev b / value b) ^ 2.
Proof.
  intros Ha Hb. cbn [udiv value stddev]. set (v := value a / value b).
  assert (Hv : v <> 0).
  { unfold v, Rdiv. apply Rmult_integral_contrapositive_currified; [assumption|apply Rinv_neq_0_compat; assumption]. }
  set (q := (stddev a / value a) ^ 2 + (stddev b / value b) ^ 2).
  assert (Hq : 0 <= q) by (unfold q; nra).
  unfold Rdiv. rewrite !Rpow_mult_distr, Rabs_sq, sq_sqrt by exact Hq. field. exact Hv.
Qed.
Lemma umul_comm a b : umul a (OU b) = umul b (OU a).
Proof.
  unfold umul. rewrite (Rmult_comm (value a)). f_equal. f_equal. f_equal. ring.
Qed.
Lemma umul_assoc a b c : value a <> 0 -> value b <> 0 -> value c <> 0 ->
  umul (umul a (OU b)) (OU c) = umul a (OU (umul b (OU c))).
Proof.
  intros Ha Hb Hc. pose proof (umul_rel a b Ha Hb) as H1. pose proof (umul_rel b c Hb Hc) as H2.
  set (ab := umul a (OU b)) in * . set (bc := umul b (OU c)) in * .
  unfold umul at 1 2. rewrite H1, H2.
  replace (value ab * value c) with (value a * value bc) by (unfold ab, bc, umul; cbn [value]; ring).
  f_equal. f_equal. f_equal. ring.
Qed.

Lemma u_nonneg a b k : 0 <= stddev a -> 0 <= stddev b -> k <> 0 ->
  0 <= stddev (uadd a (OU b)) /\ 0 <= stddev (usub a (OU b)) /\ 0 <= stddev (umul a (OU b)) /\
  0 <= stddev (udiv a (OU b)) /\ 0 <= stddev (uadd a (ON k)) /\ 0 <= stddev (usub a (ON k)) /\
  0 <= stddev (umul a (ON k)) /\ 0 <= stddev (udiv a (ON k)).
Proof.
  intros Ha Hb Hk. unfold uadd, usub, umul, udiv. cbn [stddev].
  pose proof (Rabs_pos_lt k Hk). repeat split; try apply sqrt_pos; try assumption;
    try (apply Rmult_le_pos; [apply Rabs_pos|apply sqrt_pos]).
  - apply Rmult_le_pos; lra.
  - apply Rmult_le_pos; [lra|]. left. apply Rinv_0_lt_compat. assumption.
Qed.

Lemma ucmp a b :
  (ult a b = true <-> value a < oval b) /\ (ule a b = true <-> value a <= oval b) /\
  (ueq a b = true <-> value a = oval b) /\ (une a b = true <-> value a <> oval b) /\
  (ugt a b = true <-> value a > oval b) /\ (uge a b = true <-> value a >= oval b).
Proof.
  unfold ult, ule, ueq, une, ugt, uge. repeat split; intros Hx;
    rewrite ?Rltb_true, ?Rleb_true, ?Reqb_true, ?negb_true_iff, ?Reqb_false in * ; lra.
Qed.

(** *** samples *)
Lemma rsum_perm x y : Permutation x y -> rsum x = rsum y.
Proof. unfold rsum. induction 1; cbn [fold_right]; lra. Qed.
Lemma rsum_map_affine k c (x : list R) : rsum (map (fun e => k * e + c) x) = k * rsum x + INR (length x) * c.
Proof. unfold rsum. induction x as [|e x IH]; cbn [map fold_right length]; [cbn; lra|]. rewrite S_INR, IH. lra. Qed.
Lemma rsum_bounds x lo hi : (forall e, In e x -> lo <= e <= hi) ->
  INR (length x) * lo <= rsum x <= INR (length x) * hi.
Proof.
  unfold rsum. induction x as [|e x IH]; intros Hx; cbn [fold_right length]; [cbn; lra|].
  rewrite S_INR. specialize (IH (fun e' H => Hx e' (or_intror H))). specialize (Hx e (or_introl eq_refl)). lra.
Qed.
Lemma rsum_sq_dev (x : list R) m : rsum (map (fun e => e * e) (map (fun e => e - m) x)) =
  rsum (map (fun e => e * e) x) - 2 * m * rsum x + INR (length x) * (m * m).
Proof.
  unfold rsum. induction x as [|e x IH]; cbn [map fold_right length]; [cbn; lra|]. rewrite S_INR, IH. ring.
Qed.
Lemma rsum_sq_nonneg x : 0 <= rsum (map (fun e => e * e) x).
Proof. unfold rsum. induction x as [|e x IH]; cbn [map fold_right]; [lra|]. pose proof (Rle_0_sqr e). unfold Rsqr in * ; lra. Qed.
Lemma rsum_sq_zero x : rsum (map (fun e => e * e) x) = 0 <-> (forall e, In e x -> e = 0).
Proof.
  induction x as [|e x IH]; cbn [map].
  - split; [intros _ ? []|reflexivity].
  - change (rsum (e * e :: map (fun e => e * e) x)) with (e * e + rsum (map (fun e => e * e) x)).
    pose proof (rsum_sq_nonneg x) as Hp. pose proof (Rle_0_sqr e) as Hs. unfold Rsqr in Hs. split.
    + intros H0 e' [<-|Hin].
      * assert (e * e = 0) by lra. apply Rmult_integral in H. tauto.
      * apply IH; [lra|exact Hin].
    + intros Hz. rewrite (Hz e) by (left; reflexivity). rewrite (proj2 IH) by (intros; apply Hz; right; assumption). ring.
Qed.

Lemma len_ne (x : list R) : x <> [] -> 0 < INR (length x).
Proof. destruct x; [contradiction|]. intros _. apply lt_0_INR. cbn; lia. Qed.

Lemma usamples_some x : x <> [] -> usamples x =
  Some (UV (rsum x / INR (length x))
    (sqrt (rsum (map (fun e => e * e) (map (fun e => e - rsum x / INR (length x)) x)) / INR (length x)))).
Proof. destruct x; [contradiction|reflexivity]. Qed.

Lemma usamples_spec x : x <> [] -> exists u, usamples x = Some u /\
  value u * INR (length x) = rsum x /\
  (forall lo hi, (forall e, In e x -> lo <= e <= hi) -> lo <= value u <= hi) /\
  0 <= stddev u /\
  stddev u ^ 2 = rsum (map (fun e => (e - value u) ^ 2) x) / INR (length x) /\
  stddev u ^ 2 = rsum (map (fun e => e ^ 2) x) / INR (length x) - value u ^ 2 /\
  (stddev u = 0 <-> forall e, In e x -> e = value u).
Proof.
  intros Hne. rewrite (usamples_some x Hne). pose proof (len_ne x Hne) as HL. set (L := INR (length x)) in * .
  set (m := rsum x / L). eexists. split; [reflexivity|]. cbn [value stddev].
  set (S2 := rsum (map (fun e => e * e) (map (fun e => e - m) x))).
  assert (HS : 0 <= S2 / L). { unfold Rdiv. apply Rmult_le_pos; [apply rsum_sq_nonneg|left; apply Rinv_0_lt_compat; exact HL]. }
  assert (Hm : m * L = rsum x) by (unfold m; field; lra).
  split; [exact Hm|]. split.
  { intros lo hi Hx. pose proof (rsum_bounds x lo hi Hx) as Hb. fold L in Hb. split; nra. }
  split; [apply sqrt_pos|]. rewrite sq_sqrt by exact HS. split; [|split].
  - unfold S2. rewrite map_map. f_equal. f_equal. apply map_ext. intros e. ring.
  - unfold S2. rewrite rsum_sq_dev. fold L. rewrite <- Hm.
    replace (map (fun e => e ^ 2) x) with (map (fun e => e * e) x) by (apply map_ext; intros; ring). field. lra.
  - split.
    + intros H0. apply sqrt_eq_0 in H0; [|exact HS].
      assert (Hz : S2 = 0) by (replace S2 with (S2 / L * L) by (field; lra); rewrite H0; ring).
      intros e He. apply (proj1 (rsum_sq_zero _)) with (e := e - m) in Hz; [lra|].
      apply in_map_iff. exists e. split; [reflexivity|exact He].
    + intros Hx. replace S2 with 0; [unfold Rdiv; rewrite Rmult_0_l; apply sqrt_0|].
      symmetry. apply rsum_sq_zero. intros e He. apply in_map_iff in He. destruct He as (e' & <- & He').
      rewrite (Hx e' He') . ring.
Qed.

Lemma usamples_perm x y : Permutation x y -> usamples x = usamples y.
Proof.
  intros P. destruct x as [|a x].
  - apply Permutation_nil in P. subst. reflexivity.
  - assert (Hy : y <> []). { intros ->. apply Permutation_sym, Permutation_nil in P. discriminate. }
    rewrite !usamples_some by (try discriminate; assumption).
    rewrite (rsum_perm _ _ P), (Permutation_length P). do 3 f_equal. f_equal. apply rsum_perm.
    do 2 apply Permutation_map. exact P.
Qed.

Lemma usamples_affine k c x u : usamples x = Some u ->
  usamples (map (fun e => k * e + c) x) = Some (uadd (umul u (ON k)) (ON c)).
Proof.
  intros Hu. assert (Hne : x <> []) by (intros ->; discriminate).
  rewrite (usamples_some x Hne) in Hu. injection Hu as <-.
  rewrite usamples_some by (destruct x; [contradiction|discriminate]).
  rewrite map_length, rsum_map_affine. pose proof (len_ne x Hne) as HL. set (L := INR (length x)) in * .
  set (m := rsum x / L). replace ((k * rsum x + L * c) / L) with (k * m + c) by (unfold m; field; lra).
  unfold uadd, umul. cbn [value stddev]. do 2 f_equal; [ring|].
  rewrite !map_map.
  assert (E : rsum (map (fun e => (k * e + c - (k * m + c)) * (k * e + c - (k * m + c))) x) =
    k ^ 2 * rsum (map (fun e => (e - m) * (e - m)) x)).
  { clearbody m. clear. unfold rsum. induction x as [|e x IH]; cbn [map fold_right]; [ring|]. rewrite IH. ring. }
  rewrite E. replace (k ^ 2 * rsum (map (fun e => (e - m) * (e - m)) x) / L)
    with (k ^ 2 * (rsum (map (fun e => (e - m) * (e - m)) x) / L)) by (field; lra).
  rewrite sqrt_mult_alt by nra. rewrite <- Rsqr_pow2, sqrt_Rsqr_abs. ring.
Qed.

(** *** logarithms *)
Lemma ulog_mul a b la lb : ulog a = Some la -> ulog b = Some lb ->
  ulog (umul a (OU b)) = Some (uadd la (OU lb)) /\
  ulog (udiv a (OU b)) = Some (usub la (OU lb)).
Proof.
  unfold ulog. destruct (Rleb (value a) 0) eqn:Ea; [discriminate|]. destruct (Rleb (value b) 0) eqn:Eb; [discriminate|].
  apply Rleb_false in Ea. apply Rleb_false in Eb. intros [= <-] [= <-].
  assert (Ha : value a <> 0) by lra. assert (Hb : value b <> 0) by lra.
  pose proof (umul_rel a b Ha Hb) as Hm. pose proof (udiv_rel a b Ha Hb) as Hd.
  assert (E : forall v s q, (s / v) ^ 2 = q -> Rabs (s / v) = sqrt q).
  { intros v s q <-. rewrite <- Rsqr_pow2, sqrt_Rsqr_abs. reflexivity. }
  split.
  - assert (Hp : 0 < value (umul a (OU b))) by (cbn [umul value]; nra).
    rewrite (proj2 (Rleb_false _ _)) by lra. rewrite (E _ _ _ Hm).
    unfold uadd. cbn [value stddev]. rewrite !Rabs_sq. do 2 f_equal.
    cbn [umul value]. apply ln_mult; lra.
  - assert (Hp : 0 < value (udiv a (OU b))) by (cbn [udiv value]; apply Rdiv_lt_0_compat; lra).
    rewrite (proj2 (Rleb_false _ _)) by lra. rewrite (E _ _ _ Hd).
    unfold usub. cbn [value stddev]. rewrite !Rabs_sq. do 2 f_equal.
    cbn [udiv value]. unfold Rdiv. rewrite ln_mult by (try lra; apply Rinv_0_lt_compat; lra). rewrite ln_Rinv by lra. ring.
Qed.

Lemma ulog10_ulog a : ulog10 a = match ulog a with Some l => Some (udiv l (ON (ln 10))) | None => None end.
Proof.
  unfold ulog10, ulog. destruct (Rleb (value a) 0) eqn:Ea; [reflexivity|]. apply Rleb_false in Ea.
  assert (0 < ln 10) by (rewrite <- ln_1; apply ln_increasing; lra).
  unfold udiv. cbn [value stddev]. do 2 f_equal. unfold Rdiv.
  rewrite Rinv_mult, <- Rmult_assoc, Rabs_mult, Rabs_inv. reflexivity.
Qed.
