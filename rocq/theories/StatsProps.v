(** C11-C14: histograms, downsampling and uncertain values. *)
From Coq Require Import List ZArith Bool Lia Sorted Permutation Reals Lra.
Import ListNotations.
From Verif Require Import Base Num RBool StatsModel StatsSpec StatsProofs UncertainProofs.
Local Open Scope R_scope.

(** * C11: bin_exact *)
Theorem C11_bin_exact {A} `{NumTotal A} : forall y : list A, exists counts bins,
  bin_exact y = Ok (counts, bins) /\
  StronglySorted (fun a b => nlt a b = true) bins /\
  (forall v, In v bins <-> In v y) /\
  counts = map (fun v => occurrences v y) bins /\
  (forall c, In c counts -> (c > 0)%Z) /\
  zsum counts = Z.of_nat (length y).
Proof.
  intros y. destruct (bin_exact_spec y) as (bins & HE & Hs & Hin & Hsum).
  exists (map (fun v => occurrences v y) bins), bins.
  split; [exact HE|]. split; [exact Hs|]. split; [exact Hin|]. split; [reflexivity|]. split; [|exact Hsum].
  intros c Hc. apply in_map_iff in Hc. destruct Hc as (v & <- & Hv). apply Hin in Hv.
  unfold occurrences. assert (In v (filter (fun e => neq e v) y)).
  { apply filter_In. split; [exact Hv|]. apply neq_spec. reflexivity. }
  destruct (filter (fun e => neq e v) y); [contradiction|]. cbn [length]. lia.
Qed.
Print Assumptions C11_bin_exact.

Example C11_witness : bin_exact [3%Z; 1%Z; 3%Z; 2%Z; 1%Z; 3%Z] = Ok ([2; 1; 3]%Z, [1; 2; 3]%Z).
Proof. reflexivity. Qed.

(** The order laws exclude NaN samples: no claim is made for them. *)

(** * C12: bin_linear; frac is the positive literal 0.05 *)
Theorem C12_bin_linear : forall frac y n, 0 < frac -> y <> [] -> (1 <= n)%nat ->
  exists counts edges lo hi, bin_linear frac y n = Ok (counts, edges) /\
    length edges = (n + 1)%nat /\ length counts = n /\ StronglySorted Rlt edges /\
    hd_error edges = Some lo /\ last edges lo = hi /\
    (forall i e, nth_error edges i = Some e -> e = lo + INR i * ((hi - lo) / INR n)) /\
    (forall x, In x y -> lo <= x <= hi) /\
    (forall i, (i < n)%nat ->
       nth_error counts i = Some (Z.of_nat (length (filter (in_bin edges i) y)))) /\
    (forall x, In x y -> exists! i, in_bin edges i x = true) /\
    zsum counts = Z.of_nat (length y).
Proof. exact bin_linear_spec. Qed.
Print Assumptions C12_bin_linear.

(** When the samples differ, the outer edges are the extreme samples
    themselves; a constant signal is centred. *)
Theorem C12_range_exact : forall frac y, 0 < frac -> y <> [] ->
  exists lo hi, linear_range frac y = Ok (lo, hi) /\
    ((In lo y /\ In hi y) \/ (exists c, (forall x, In x y -> x = c) /\ (lo + hi) / 2 = c)).
Proof.
  intros frac y Hf Hne. unfold linear_range.
  destruct (py_min_R y Hne) as (mn & -> & Hin & Hmn). destruct (py_max_R y Hne) as (mx & -> & Hix & Hmx).
  cbn [bind]. cbn. destruct (Reqb mn mx) eqn:E; [apply Reqb_true in E|].
  - subst mx. assert (Hc : forall x, In x y -> x = mn) by (intros x Hx; specialize (Hmn x Hx); specialize (Hmx x Hx); lra).
    destruct (Reqb mn 0) eqn:E0; [apply Reqb_true in E0|]; do 2 eexists; (split; [reflexivity|]); right; exists mn;
      (split; [exact Hc|lra]).
  - exists mn, mx. split; [reflexivity|]. left. split; assumption.
Qed.
Print Assumptions C12_range_exact.

Theorem C12_density : forall frac y n, 0 < frac -> y <> [] -> (1 <= n)%nat ->
  exists counts dens edges, bin_linear frac y n = Ok (counts, edges) /\
    bin_linear_density frac y n = Ok (dens, edges) /\ length dens = n /\
    (forall i d, nth_error dens i = Some d -> 0 <= d) /\
    rsum_prod dens (widths edges) = 1.
Proof. exact bin_linear_density_spec. Qed.
Print Assumptions C12_density.

(** No samples: the minimum of nothing. *)
Theorem C12_empty {A} `{Num A} : forall frac n, bin_linear (A := A) frac [] n = Err ValueError.
Proof. reflexivity. Qed.
Print Assumptions C12_empty.

From Coq Require Import QArith.
Local Close Scope Q_scope.
Example C12_witness : bin_linear (A := Q) (1 # 20)%Q [0; 1; 2; 4; 4]%Q 2 =
  Ok ([2; 3]%Z, [0; 2; 4]%Q).
Proof. vm_compute. reflexivity. Qed.
Example C12_witness_constant : bin_linear (A := Q) (1 # 20)%Q [-(20 # 1); -(20 # 1)]%Q 2 =
  Ok ([0; 2]%Z, [-(21 # 1); -(20 # 1); -(19 # 1)]%Q).
Proof. vm_compute. reflexivity. Qed.

(** * C13: downsample *)
Theorem C13_small_unchanged : forall floor frac y n_max bins, y <> [] ->
  INR (length y) <= n_max -> downsample floor frac y n_max bins = Ok y.
Proof.
  intros floor frac y n_max bins Hne Hle. rewrite downsample_scale by exact Hne. cbv zeta.
  rewrite (proj2 (Rleb_true _ _) Hle). reflexivity.
Qed.
Print Assumptions C13_small_unchanged.

Theorem C13_exact_bins : forall frac y n_max, y <> [] -> 0 < n_max < INR (length y) ->
  exists out, downsample Int_part frac y n_max None = Ok out /\ INR (length out) <= n_max /\
    (forall v, In v out -> In v y) /\
    (forall v, occurrences v out = Int_part (IZR (occurrences v y) * (n_max / INR (length y)))) /\
    StronglySorted Rle out.
Proof. exact downsample_exact. Qed.
Print Assumptions C13_exact_bins.

Theorem C13_linear_bins : forall frac y n_max n, 0 < frac -> y <> [] -> (1 <= n)%nat ->
  0 < n_max < INR (length y) ->
  exists out counts edges, downsample Int_part frac y n_max (Some n) = Ok out /\
    bin_linear frac y n = Ok (counts, edges) /\ INR (length out) <= n_max /\
    (forall v, In v out -> In v (centres edges)).
Proof. exact downsample_linear. Qed.
Print Assumptions C13_linear_bins.

(** Exactly floor(count * n_max / len) fails in double arithmetic: 49 equal
    samples reduced to one keep none, for 49 * (1/49) < 1. *)
Theorem C13_floor_doubles_refuted : forall (floor : f64 -> Z),
  (forall x : f64, nle (nofZ 0) x = true -> nlt x (nofZ 1) = true -> floor x = 0%Z) ->
  downsample floor (f64_frac 1 20) (repeat (f64_ofZ 7) 49) (f64_ofZ 1) None = Ok [].
Proof.
  intros floor Hf. set (c := nmul (nofZ 49) (ndiv (f64_ofZ 1) (nofZ 49))).
  assert (E : downsample floor (f64_frac 1 20) (repeat (f64_ofZ 7) 49) (f64_ofZ 1) None =
    Ok (repeat (f64_ofZ 7) (Z.to_nat (floor c)) ++ [])) by (vm_compute; reflexivity).
  rewrite E, Hf; [reflexivity| |]; vm_compute; reflexivity.
Qed.
Print Assumptions C13_floor_doubles_refuted.

Theorem C13_empty_raises_refuted : forall floor frac n_max bins,
  downsample (A := R) floor frac [] n_max bins = Err ZeroDivisionError.
Proof.
  intros. unfold downsample, py_div. cbn. rewrite (proj2 (Reqb_true 0 0) eq_refl). reflexivity.
Qed.
Print Assumptions C13_empty_raises_refuted.

Example C13_witness : downsample (A := Q) Qround.Qfloor (1 # 20)%Q [5; 1; 5; 1; 5; 9]%Q 3%Q None = Ok [1; 5]%Q.
Proof. vm_compute. reflexivity. Qed.

(** * C14: UncertainValue *)
Theorem C14_add_sub : forall a b c,
  value (uadd a (OU b)) = value a + value b /\
  value (usub a (OU b)) = value a - value b /\
  stddev (uadd a (OU b)) ^ 2 = stddev a ^ 2 + stddev b ^ 2 /\
  stddev (usub a (OU b)) ^ 2 = stddev a ^ 2 + stddev b ^ 2 /\
  uadd a (OU b) = uadd b (OU a) /\
  uadd (uadd a (OU b)) (OU c) = uadd a (OU (uadd b (OU c))) /\
  usub a (OU b) = uadd a (OU (umul b (ON (-1)))).
Proof.
  intros. repeat split; [apply uadd_var|apply usub_var|apply uadd_comm|apply uadd_assoc|apply usub_uadd].
Qed.
Print Assumptions C14_add_sub.

Theorem C14_number_operands : forall a k m,
  uadd a (ON k) = UV (value a + k) (stddev a) /\ usub a (ON k) = UV (value a - k) (stddev a) /\
  stddev (umul a (ON k)) = stddev a * Rabs k /\
  umul (umul a (ON k)) (ON m) = umul a (ON (k * m)) /\
  (k <> 0 -> udiv (umul a (ON k)) (ON k) = a /\ udiv a (ON k) = umul a (ON (/ k))).
Proof.
  intros. repeat split; [apply umul_scale|apply udiv_umul; assumption|apply udiv_scale; assumption].
Qed.
Print Assumptions C14_number_operands.

Theorem C14_mul_div : forall a b c, value a <> 0 -> value b <> 0 -> value c <> 0 ->
  value (umul a (OU b)) = value a * value b /\ value (udiv a (OU b)) = value a / value b /\
  (stddev (umul a (OU b)) / value (umul a (OU b))) ^ 2 = (stddev a / value a) ^ 2 + (stddev b / value b) ^ 2 /\
  (stddev (udiv a (OU b)) / value (udiv a (OU b))) ^ 2 = (stddev a / value a) ^ 2 + (stddev b / value b) ^ 2 /\
  umul a (OU b) = umul b (OU a) /\
  umul (umul a (OU b)) (OU c) = umul a (OU (umul b (OU c))).
Proof.
  intros. repeat split; [apply umul_rel|apply udiv_rel|apply umul_comm|apply umul_assoc]; assumption.
Qed.
Print Assumptions C14_mul_div.

Theorem C14_stddev_nonneg : forall a b k, 0 <= stddev a -> 0 <= stddev b -> k <> 0 ->
  0 <= stddev (uadd a (OU b)) /\ 0 <= stddev (usub a (OU b)) /\ 0 <= stddev (umul a (OU b)) /\
  0 <= stddev (udiv a (OU b)) /\ 0 <= stddev (uadd a (ON k)) /\ 0 <= stddev (usub a (ON k)) /\
  0 <= stddev (umul a (ON k)) /\ 0 <= stddev (udiv a (ON k)).
Proof. exact u_nonneg. Qed.
Print Assumptions C14_stddev_nonneg.

Theorem C14_comparisons : forall a b,
  (ult a b = true <-> value a < oval b) /\ (ule a b = true <-> value a <= oval b) /\
  (ueq a b = true <-> value a = oval b) /\ (une a b = true <-> value a <> oval b) /\
  (ugt a b = true <-> value a > oval b) /\ (uge a b = true <-> value a >= oval b).
Proof. exact ucmp. Qed.
Print Assumptions C14_comparisons.

Theorem C14_samples : forall x, x <> [] -> exists u, usamples x = Some u /\
  value u * INR (length x) = fold_right Rplus 0 x /\
  (forall lo hi, (forall e, In e x -> lo <= e <= hi) -> lo <= value u <= hi) /\
  0 <= stddev u /\
  stddev u ^ 2 = fold_right Rplus 0 (map (fun e => (e - value u) ^ 2) x) / INR (length x) /\
  stddev u ^ 2 = fold_right Rplus 0 (map (fun e => e ^ 2) x) / INR (length x) - value u ^ 2 /\
  (stddev u = 0 <-> forall e, In e x -> e = value u).
Proof. exact usamples_spec. Qed.
Print Assumptions C14_samples.

Theorem C14_samples_laws : forall x y k c u,
  usamples [] = None /\
  (Permutation x y -> usamples x = usamples y) /\
  (usamples x = Some u ->
   usamples (map (fun e => k * e + c) x) = Some (uadd (umul u (ON k)) (ON c))).
Proof. intros. split; [reflexivity|]. split; [apply usamples_perm|apply usamples_affine]. Qed.
Print Assumptions C14_samples_laws.

Theorem C14_logarithms : forall a b la lb, ulog a = Some la -> ulog b = Some lb ->
  value la = ln (value a) /\
  ulog (umul a (OU b)) = Some (uadd la (OU lb)) /\
  ulog (udiv a (OU b)) = Some (usub la (OU lb)) /\
  ulog10 a = Some (udiv la (ON (ln 10))).
Proof.
  intros a b la lb Ha Hb. destruct (ulog_mul a b la lb Ha Hb) as [H1 H2].
  split; [|split; [exact H1|split; [exact H2|rewrite ulog10_ulog, Ha; reflexivity]]].
  unfold ulog in Ha. destruct (Rleb (value a) 0); [discriminate|]. injection Ha as <-. reflexivity.
Qed.
Print Assumptions C14_logarithms.

Example C14_witness : exists l, ulog (UV 2 (1/2)) = Some l.
Proof. unfold ulog. cbn [value]. rewrite (proj2 (Rleb_false 2 0)) by lra. eexists. reflexivity. Qed.
Example C14_witness_samples : exists u, usamples [1; 3] = Some u /\ value u = 2 /\ stddev u = 1.
Proof.
  eexists. split; [reflexivity|]. cbn. split; [lra|].
  replace (_ / _) with (1 * 1) by lra. apply sqrt_square. lra.
Qed.
