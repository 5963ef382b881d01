(** Theorems about Gaussian functions, mixtures and fits. *)
From Coq Require Import ZArith Reals Bool List Lia Lra Permutation Sorted.
Import ListNotations.
From Verif Require Import Base Num RBool StatsModel MathModel MathSpec MathProofs GaussProofs.
From Verif Require CdrSearchProofs.
Local Open Scope R_scope.

(** *** C52: one Gaussian function *)
Definition positive (g : gaussian) : Prop := 0 < amplitude g /\ stddev g <> 0.
Lemma bell_scale g : stddev g <> 0 -> 0 < Rabs (stddev g) * sqrt (2 * PI).
Proof. intros N. pose proof PI_RGT_0. apply Rmult_lt_0_compat; [apply Rabs_pos_lt; exact N|apply sqrt_lt_R0; lra]. Qed.
Lemma bell_order g x x' : stddev g <> 0 -> 0 <= amplitude g -> Rabs (x - mean g) <= Rabs (x' - mean g) -> bell' g x' <= bell' g x.
Proof.
  intros N A D. unfold bell'. apply Rmult_le_compat_l; [apply Rmult_le_pos; [exact A|left; apply Rinv_0_lt_compat, bell_scale, N]|].
  assert (Q : (x - mean g)² <= (x' - mean g)²) by (apply Rsqr_le_abs_1; exact D).
  assert (E : - ((x' - mean g)² / (2 * (stddev g)²)) <= - ((x - mean g)² / (2 * (stddev g)²))).
  { apply Ropp_le_contravar. apply Rmult_le_compat_r; [|exact Q]. left. apply Rinv_0_lt_compat. pose proof (Rsqr_pos_lt _ N). lra. }
  destruct E as [E|E]; [left; apply exp_increasing; exact E|right; rewrite E; reflexivity].
Qed.
Lemma bell_strict g x x' : positive g -> Rabs (x - mean g) < Rabs (x' - mean g) -> bell' g x' < bell' g x.
Proof.
  intros (A & N) D. unfold bell'. apply Rmult_lt_compat_l; [apply Rmult_lt_0_compat; [exact A|apply Rinv_0_lt_compat, bell_scale, N]|].
  apply exp_increasing. apply Ropp_lt_contravar. apply Rmult_lt_compat_r; [|apply Rsqr_lt_abs_1; exact D]. apply Rinv_0_lt_compat. pose proof (Rsqr_pos_lt _ N). lra.
Qed.
(** Positive, symmetric about the mean, highest there, falling with distance,
    at one deviation exp(-1/2) of the peak A / (sigma sqrt(2 pi)); arrays give the
    same values. *)
Theorem C52_gaussian : forall g, 0 < amplitude g -> 0 < stddev g ->
  exists f, (forall x, compute_float g x = Fin (f x)) /\ (forall x, compute_array g x = Ok (map (fun t => Fin (f t)) x))
    /\ (forall x, 0 < f x) /\ (forall d, f (mean g + d) = f (mean g - d))
    /\ (forall x x', Rabs (x - mean g) < Rabs (x' - mean g) -> f x' < f x)
    /\ f (mean g) = amplitude g / (stddev g * sqrt (2 * PI))
    /\ f (mean g + stddev g) = exp (- (1 / 2)) * f (mean g).
Proof.
  intros g A S. assert (N : stddev g <> 0) by lra. exists (bell' g). split; [|split; [|split; [|split; [|split; [|split]]]]].
  - intros x. unfold compute_float. rewrite (proj2 (Reqb_false _ 0) N). rewrite bell_eq by exact N. reflexivity.
  - intros x. unfold compute_array. rewrite (proj2 (Reqb_false _ 0) N). f_equal. apply map_ext. intros t. rewrite bell_eq by exact N. reflexivity.
  - intros x. unfold bell'. apply Rmult_lt_0_compat; [|apply exp_pos]. apply Rmult_lt_0_compat; [exact A|apply Rinv_0_lt_compat, bell_scale, N].
  - intros d. unfold bell'. replace (mean g + d - mean g)² with (mean g - d - mean g)² by (unfold Rsqr; ring). reflexivity.
  - intros x x' D. apply bell_strict; [split; assumption|exact D].
  - unfold bell'. replace (- ((mean g - mean g)² / (2 * (stddev g)²))) with 0 by (unfold Rsqr; field; exact N). rewrite exp_0, Rmult_1_r, (Rabs_right (stddev g)) by lra. reflexivity.
  - unfold bell'. replace (- ((mean g - mean g)² / (2 * (stddev g)²))) with 0 by (unfold Rsqr; field; exact N). replace (- ((mean g + stddev g - mean g)² / (2 * (stddev g)²))) with (- (1 / 2)) by (unfold Rsqr; field; exact N). rewrite exp_0. ring.
Qed.
Print Assumptions C52_gaussian.
(** Zero deviation: infinite at the mean only; on an array at the sample
    closest to the mean only. *)
Theorem C52_impulse : forall g, impulse g ->
  (forall x, compute_float g x = if Req_EM_T x (mean g) then PInf else Fin 0)
  /\ compute_array g [] = Err ValueError
  /\ forall x, x <> [] -> exists y i, compute_array g x = Ok y /\ length y = length x /\ closest (mean g) x i /\ nth_error y i = Some PInf
       /\ forall j v, nth_error y j = Some v -> j <> i -> v = Fin 0.
Proof.
  intros g S. unfold impulse in S. split; [|split].
  - intros x. unfold compute_float. rewrite (proj2 (Reqb_true _ 0) S). unfold Reqb. destruct (Req_EM_T x (mean g)); reflexivity.
  - unfold compute_array. rewrite (proj2 (Reqb_true _ 0) S). reflexivity.
  - intros x N. destruct (compute_array_spec g x N) as (y & E & L & V). destruct (argmin_closest (mean g) x N) as (i & _ & C). exists y, i. split; [exact E|]. split; [exact L|]. split; [exact C|].
    destruct (Req_EM_T (stddev g) 0) as [_|Q]; [|congruence]. split.
    + pose proof C as (v & EV & _). exact (proj1 (V i v EV) C).
    + intros j v J NE. assert (JL : (j < length x)%nat) by (rewrite <- L; apply nth_error_Some; rewrite J; discriminate). destruct (nth_error x j) as [t|] eqn:T; [|apply nth_error_None in T; lia].
      destruct (V j t T) as (_ & Q). rewrite Q in J; [injection J as <-; reflexivity|]. intros CJ. apply NE. exact (closest_unique _ _ _ _ CJ C).
Qed.
Print Assumptions C52_impulse.
(** A mixture is the sum of its components; infinite where an impulse is. *)
Theorem C52_mixture : forall components,
  (forall x, mix_float components x = PInf <-> exists g, In g components /\ impulse g /\ mean g = x)
  /\ (forall x v, mix_float components x = Fin v -> v = smooth components x)
  /\ (forall x, x <> [] -> exists y, mix_array components x = Ok y /\ length y = length x
        /\ forall i t, nth_error x i = Some t ->
             (nth_error y i = Some PInf <-> exists g, In g components /\ impulse g /\ closest (mean g) x i)
             /\ (forall v, nth_error y i = Some (Fin v) -> v = smooth components t)).
Proof.
  intros gs. split; [|split].
  - intros x. destruct (mix_float_spec gs x) as (P & Q). split; [|exact P]. intros E. destruct (Classical_Prop.classic (exists g, In g gs /\ impulse g /\ mean g = x)) as [C|C]; [exact C|]. rewrite (Q C) in E. discriminate.
  - intros x v E. destruct (mix_float_spec gs x) as (P & Q). destruct (Classical_Prop.classic (exists g, In g gs /\ impulse g /\ mean g = x)) as [C|C]; [rewrite (P C) in E; discriminate|]. rewrite (Q C) in E. injection E as <-. reflexivity.
  - intros x N. destruct (mix_array_spec gs x N) as (y & E & L & V). exists y. split; [exact E|]. split; [exact L|]. intros i t I. destruct (V i t I) as (P & Q).
    destruct (Classical_Prop.classic (exists g, In g gs /\ impulse g /\ closest (mean g) x i)) as [C|C].
    + split; [split; [intros _; exact C|exact P]|]. intros v EV. rewrite (P C) in EV. discriminate.
    + rewrite (Q C). split; [split; [discriminate|intros C'; destruct (C C')]|]. intros v EV. injection EV as <-. reflexivity.
Qed.
Print Assumptions C52_mixture.

(** *** The centre of a mixture *)
Lemma near_grid a b m n : a <= m <= b -> (2 <= n)%nat -> exists i, (i < n)%nat /\ Rabs (a + INR i * ((b - a) / INR (n - 1)) - m) <= (b - a) / INR (n - 1) / 2.
Proof.
  intros M N. set (h := (b - a) / INR (n - 1)). assert (P : 0 < INR (n - 1)) by (apply lt_0_INR; lia).
  assert (EH : INR (n - 1) * h = b - a) by (unfold h; field; lra).
  destruct (Req_dec a b) as [E|E].
  { exists 0%nat. split; [lia|]. assert (h = 0) by (unfold h; rewrite E; unfold Rdiv; ring). rewrite H. cbn. replace (a + 0 * 0 - m) with 0 by lra. rewrite Rabs_R0. lra. }
  assert (HP : 0 < h) by (unfold h; apply Rdiv_lt_0_compat; lra).
  pose proof (base_Int_part ((m - a) / h + 1 / 2)) as (L & U). set (z := Int_part ((m - a) / h + 1 / 2)) in *  .
  assert (Q : 0 <= (m - a) / h) by (apply Rmult_le_pos; [lra|left; apply Rinv_0_lt_compat; exact HP]).
  assert (Q2 : (m - a) / h <= INR (n - 1)) by (apply (Rmult_le_reg_r h); [exact HP|]; unfold Rdiv; rewrite Rmult_assoc, Rinv_l by lra; lra).
  assert (Z1 : (0 <= z)%Z) by (apply Z.lt_succ_r, lt_IZR; rewrite succ_IZR; lra).
  assert (Z2 : (z < Z.of_nat n)%Z) by (apply lt_IZR; rewrite minus_INR in Q2 by lia; rewrite <- INR_IZR_INZ; cbn [INR] in Q2; lra).
  exists (Z.to_nat z). split; [lia|]. rewrite INR_IZR_INZ, Z2Nat.id by exact Z1. set (q := (m - a) / h) in *  .
  assert (EM : m = a + q * h) by (unfold q; field; lra). replace (a + IZR z * h - m) with ((IZR z - q) * h) by (rewrite EM; ring). rewrite Rabs_mult, (Rabs_right h) by lra.
  replace (h / 2) with (1 / 2 * h) by field. apply Rmult_le_compat_r; [lra|]. apply Rabs_le. lra.
Qed.
Lemma peak_impulse gs lo hi m : lo <= m <= hi -> (exists g, In g gs /\ impulse g) -> (forall g, In g gs -> impulse g -> mean g = m) ->
  exists x, peak gs lo hi = Ok x /\ lo <= x <= hi /\ Rabs (x - m) <= (hi - lo) / 1998.
Proof.
  intros M (g0 & G0 & I0) AM. remember 1000%nat as n eqn:EN. destruct (peak_spec gs lo hi n EN) as (x & i & v & EP & EX & IN & EI & y & EY & EV & BV). exists x. split; [exact EP|].
  assert (N1 : INR (n - 1) = 999) by (rewrite INR_IZR_INZ; f_equal; rewrite EN; reflexivity). rewrite N1 in EX.
  split; [|].
  { assert (0 <= INR i <= 999) by (split; [apply pos_INR|rewrite <- N1; apply le_INR; lia]). rewrite EX. split.
    - pose proof (Rmult_le_pos (INR i) ((hi - lo) / 999) ltac:(lra) ltac:(lra)). lra.
    - pose proof (Rmult_le_compat_r ((hi - lo) / 999) (INR i) 999 ltac:(lra) ltac:(lra)). lra. }
  assert (L : length (linspace lo hi n) = n) by (rewrite linspace_points by lia; rewrite map_length, seq_length; reflexivity).
  assert (NE : linspace lo hi n <> []) by (intros Q; rewrite Q in L; cbn in L; lia).
  destruct (mix_array_spec gs _ NE) as (y' & EY' & LY & VY). rewrite EY in EY'. injection EY' as <-.
  destruct (argmin_closest m _ NE) as (k & _ & C). pose proof C as (w & EW & _). rewrite <- (AM g0 G0 I0) in C.
  assert (YK : nth_error y k = Some PInf) by (apply (VY k w EW); exists g0; auto).
  assert (VP : v = PInf) by (specialize (BV k PInf YK); destruct v; [discriminate BV|reflexivity]). subst v.
  assert (CI : closest m (linspace lo hi n) i).
  { destruct (VY i x EI) as (_ & Q). destruct (Classical_Prop.classic (exists g, In g gs /\ impulse g /\ closest (mean g) (linspace lo hi n) i)) as [(g & G & IG & CG)|NC]; [rewrite (AM g G IG) in CG; exact CG|]. rewrite (Q NC) in EV. discriminate. }
  destruct (near_grid lo hi m n M ltac:(lia)) as (j & J & D). rewrite N1 in D.
  destruct CI as (x' & EX' & CB). rewrite EI in EX'. injection EX' as <-. destruct (CB j (lo + INR j * ((hi - lo) / 999))) as (B & _); [rewrite linspace_points by lia; rewrite N1; apply (nth_error_seq_map (fun i : nat => lo + INR i * ((hi - lo) / 999))); exact J|].
  replace ((hi - lo) / 1998) with ((hi - lo) / 999 / 2) by field. lra.
Qed.
Lemma peak_smooth gs lo hi : (forall g, In g gs -> ~ impulse g) ->
  exists x, peak gs lo hi = Ok x /\ In x (grid lo ((hi - lo) / 999) 1000) /\ forall t, In t (grid lo ((hi - lo) / 999) 1000) -> smooth gs t <= smooth gs x.
Proof.
  intros NI. remember 1000%nat as n eqn:EN. destruct (peak_spec gs lo hi n EN) as (x & i & v & EP & EX & IN & EI & y & EY & EV & BV). exists x. split; [exact EP|].
  assert (N1 : INR (n - 1) = 999) by (rewrite INR_IZR_INZ; f_equal; rewrite EN; reflexivity).
  assert (EG : linspace lo hi n = grid lo ((hi - lo) / 999) n) by (rewrite linspace_points by lia; rewrite N1; reflexivity). rewrite EG in *  .
  split; [exact (nth_error_In _ _ EI)|]. assert (NE : grid lo ((hi - lo) / 999) n <> []) by (intros Q; rewrite Q in EI; destruct i; discriminate).
  destruct (mix_array_spec gs _ NE) as (y' & EY' & LY & VY). rewrite EY in EY'. injection EY' as <-.
  assert (NX : forall i, ~ (exists g, In g gs /\ impulse g /\ closest (mean g) (grid lo ((hi - lo) / 999) n) i)) by (intros k (g & G & I & _); exact (NI g G I)).
  rewrite (proj2 (VY i x EI) (NX i)) in EV. injection EV as <-.
  intros t T. apply In_nth_error in T. destruct T as (j & J). specialize (BV j _ (proj2 (VY j t J) (NX j))). cbn in BV. apply Rltb_false in BV. exact BV.
Qed.
Lemma center_range gs : (2 <= length gs)%nat -> exists lo hi, (exists g, In g gs /\ mean g = lo) /\ (exists g, In g gs /\ mean g = hi) /\ (forall g, In g gs -> lo <= mean g <= hi)
  /\ forall r, (exists x, peak gs lo hi = Ok x /\ peak gs (x - (hi - lo) / 1000) (x + (hi - lo) / 1000) = r) -> center gs = r.
Proof.
  intros L. assert (NE : map mean gs <> []) by (destruct gs; [cbn in L; lia|discriminate]).
  destruct (py_min_R (map mean gs) NE) as (lo & EL & IL & BL). destruct (py_max_R (map mean gs) NE) as (hi & EH & IH & BH). exists lo, hi.
  apply in_map_iff in IL. destruct IL as (g1 & M1 & G1). apply in_map_iff in IH. destruct IH as (g2 & M2 & G2).
  split; [exists g1; auto|]. split; [exists g2; auto|]. split; [intros g G; split; [apply BL|apply BH]; apply in_map; exact G|].
  intros r (x & EX & ER). destruct gs as [|a [|b gs]]; cbn [length] in L; try lia. unfold center. rewrite EL, EH. cbn [bind]. rewrite EX. cbn [bind]. exact ER.
Qed.
Theorem C52_center_single : forall g, center [g] = Ok (mean g) /\ center [] = Err ValueError.
Proof. intros g. split; reflexivity. Qed.
Print Assumptions C52_center_single.
(** Several components: the best of 1000 points around the best of 1000 points
    between the outermost means. *)
Theorem C52_center : forall gs, (2 <= length gs)%nat -> (forall g, In g gs -> ~ impulse g) ->
  exists lo hi x c, (exists g, In g gs /\ mean g = lo) /\ (exists g, In g gs /\ mean g = hi) /\ (forall g, In g gs -> lo <= mean g <= hi)
    /\ center gs = Ok c
    /\ In x (grid lo ((hi - lo) / 999) 1000) /\ (forall t, In t (grid lo ((hi - lo) / 999) 1000) -> smooth gs t <= smooth gs x)
    /\ In c (grid (x - (hi - lo) / 1000) ((hi - lo) / 499500) 1000) /\ (forall t, In t (grid (x - (hi - lo) / 1000) ((hi - lo) / 499500) 1000) -> smooth gs t <= smooth gs c).
Proof.
  intros gs L NI. destruct (center_range gs L) as (lo & hi & A & B & C & F). destruct (peak_smooth gs lo hi NI) as (x & EX & IX & BX).
  destruct (peak_smooth gs (x - (hi - lo) / 1000) (x + (hi - lo) / 1000) NI) as (c & EC & IC & BC).
  replace ((x + (hi - lo) / 1000 - (x - (hi - lo) / 1000)) / 999) with ((hi - lo) / 499500) in IC, BC by field.
  exists lo, hi, x, c. split; [exact A|]. split; [exact B|]. split; [exact C|]. split; [apply F; exists x; auto|]. auto.
Qed.
Print Assumptions C52_center.
(** With an impulse the centre is at it, to a millionth of the span of the means. *)
Theorem C52_center_impulse : forall gs m, (2 <= length gs)%nat -> (exists g, In g gs /\ impulse g) -> (forall g, In g gs -> impulse g -> mean g = m) ->
  exists c lo hi, center gs = Ok c /\ (exists g, In g gs /\ mean g = lo) /\ (exists g, In g gs /\ mean g = hi) /\ (forall g, In g gs -> lo <= mean g <= hi)
    /\ Rabs (c - m) <= (hi - lo) / 999000.
Proof.
  intros gs m L IM AM. destruct (center_range gs L) as (lo & hi & A & B & C & F). pose proof IM as (g0 & G0 & I0). pose proof (C g0 G0) as M. rewrite (AM g0 G0 I0) in M.
  destruct (peak_impulse gs lo hi m M IM AM) as (x & EX & _ & DX).
  assert (AB : - ((hi - lo) / 1998) <= x - m <= (hi - lo) / 1998) by (pose proof (Rle_abs (x - m)); pose proof (Rle_abs (- (x - m))) as Q; rewrite Rabs_Ropp in Q; lra).
  destruct (peak_impulse gs (x - (hi - lo) / 1000) (x + (hi - lo) / 1000) m ltac:(lra) IM AM) as (c & EC & _ & DC).
  exists c, lo, hi. split; [apply F; exists x; auto|]. split; [exact A|]. split; [exact B|]. split; [exact C|]. lra.
Qed.
Print Assumptions C52_center_impulse.
(** The peak of a mixture lies between the outermost means. *)
Theorem C52_peak_between : forall gs lo hi t, (forall g, In g gs -> 0 <= amplitude g /\ lo <= mean g <= hi) ->
  (t <= lo -> smooth gs t <= smooth gs lo) /\ (hi <= t -> smooth gs t <= smooth gs hi).
Proof.
  induction gs as [|g gs IH]; intros lo hi t H; [split; intros; apply Rle_refl|]. rewrite !smooth_cons.
  destruct (IH lo hi t (fun h Hh => H h (or_intror Hh))) as (P & Q). destruct (H g (or_introl eq_refl)) as (A & M). unfold finite_part. destruct (Req_EM_T (stddev g) 0) as [_|N]; [split; intros T; [specialize (P T)|specialize (Q T)]; lra|].
  split; intros T.
  - specialize (P T). assert (bell' g t <= bell' g lo); [|lra]. apply bell_order; [exact N|exact A|]. rewrite !Rabs_left1 by lra. lra.
  - specialize (Q T). assert (bell' g t <= bell' g hi); [|lra]. apply bell_order; [exact N|exact A|]. rewrite !Rabs_right by lra. lra.
Qed.
Print Assumptions C52_peak_between.
Example C52_center_example : exists c, center [Gaussian 1 0 0; Gaussian 3 999 2] = Ok c /\ Rabs c <= 1 / 1000.
Proof.
  destruct (C52_center_impulse [Gaussian 1 0 0; Gaussian 3 999 2] 0) as (c & lo & hi & E & (g1 & [<-|[<-|[]]] & <-) & (g2 & [<-|[<-|[]]] & <-) & B & D).
  - cbn; lia.
  - exists (Gaussian 1 0 0). split; [left; reflexivity|reflexivity].
  - intros g [<-|[<-|[]]] I; [reflexivity|unfold impulse in I; cbn in I; lra].
  - exists c. split; [exact E|]. rewrite Rminus_0_r in D. cbn in D. lra.
  - exists c. split; [exact E|]. rewrite Rminus_0_r in D. cbn in D. lra.
  - exfalso. pose proof (B _ (or_introl eq_refl)) as Q. cbn in Q. lra.
  - exfalso. pose proof (B _ (or_introl eq_refl)) as Q. cbn in Q. lra.
Qed.

(** *** Fits *)
(** The probability of failure and the threshold are inverse; more samples or a
    larger threshold make failure less likely. *)
Theorem C52_sample_error : forall erfc erfcinv n p,
  (forall q, 0 < q < 2 -> erfc (erfcinv q) = q) -> (forall a b, a < b -> erfc b < erfc a) -> (1 <= n)%nat ->
  (0 < p < 2 -> sample_error erfc n (sample_error_inv erfcinv n p) = p)
  /\ (forall t t', t < t' -> sample_error erfc n t' < sample_error erfc n t)
  /\ (forall k t, (n < k)%nat -> 0 < t -> sample_error erfc k t < sample_error erfc n t).
Proof.
  intros erfc erfcinv n p INV DEC N. assert (P : 0 < INR n) by (apply lt_0_INR; lia). pose proof (sqrt_lt_R0 _ P) as SP. split; [|split].
  - intros Q. unfold sample_error, sample_error_inv. replace (erfcinv p / sqrt (INR n) * sqrt (INR n)) with (erfcinv p) by (field; lra). exact (INV p Q).
  - intros t t' T. unfold sample_error. apply DEC. apply Rmult_lt_compat_r; assumption.
  - intros k t K T. unfold sample_error. apply DEC. apply Rmult_lt_compat_l; [exact T|]. apply sqrt_lt_1_alt. split; [lra|]. apply lt_INR. exact K.
Qed.
Print Assumptions C52_sample_error.

Lemma total_scale c l : total (map (fun v => c * v) l) = c * total l.
Proof. induction l as [|x l IH]; [cbn; ring|]. cbn [map]. rewrite !total_cons, IH. ring. Qed.
(** Scaling all frequencies scales the fitted amplitude only, whatever the
    fitting algorithm. *)
Theorem C52_fit_pdf : forall curve_fit x frequency c, c <> 0 ->
  fit_pdf curve_fit x (map (fun v => c * v) frequency)
  = bind (fit_pdf curve_fit x frequency) (fun g => Ok (Gaussian (c * amplitude g) (mean g) (stddev g))).
Proof.
  intros cf x fr c C. unfold fit_pdf. rewrite !rsum_total, total_scale. destruct (Reqb (total fr) 0) eqn:E; [apply Reqb_true in E | apply Reqb_false in E].
  - rewrite (proj2 (Reqb_true (c * total fr) 0)) by (rewrite E; ring). reflexivity.
  - rewrite (proj2 (Reqb_false (c * total fr) 0)) by (intros Q; apply Rmult_integral in Q; tauto).
    assert (EN : map (fun v => v / (c * total fr)) (map (fun v => c * v) fr) = map (fun v => v / total fr) fr) by (rewrite map_map; apply map_ext; intros v; field; tauto).
    rewrite EN. destruct (py_max (map (fun v => v / total fr) fr)) as [h|e]; [|reflexivity]. cbn [bind]. match goal with |- bind ?m _ = _ => destruct m as [g|e]; [|reflexivity] end. cbn [bind amplitude mean stddev]. f_equal. f_equal. ring.
Qed.
Print Assumptions C52_fit_pdf.

Definition moved (a b : R) (g : gaussian) : gaussian := Gaussian (amplitude g) (a * mean g + b) (a * stddev g).
Definition normalised (y : list R) (lo hi : R) : list R := map (fun v => (v - total y / INR (length y)) / (hi - lo)) y.
Lemma insert_by_map f g l : (forall h, amplitude (f h) = amplitude h) -> insert_by (f g) (map f l) = map f (insert_by g l).
Proof.
  intros F. induction l as [|h l IH]; [reflexivity|]. cbn [map insert_by]. rewrite !F. destruct (Rltb (amplitude h) (amplitude g)); cbn [map]; [reflexivity|]. rewrite IH. reflexivity.
Qed.
Lemma by_amplitude_map f l : (forall h, amplitude (f h) = amplitude h) -> by_amplitude (map f l) = map f (by_amplitude l).
Proof.
  intros F. unfold by_amplitude. assert (G : forall l acc, fold_left (fun acc g => insert_by g acc) (map f l) (map f acc) = map f (fold_left (fun acc g => insert_by g acc) l acc)); [|exact (G l [])].
  clear l. induction l as [|g l IH]; intros acc; [reflexivity|]. cbn [map fold_left]. rewrite insert_by_map by exact F. apply IH.
Qed.
Lemma insert_by_perm g l : Permutation (g :: l) (insert_by g l).
Proof.
  induction l as [|h l IH]; [apply Permutation_refl|]. cbn [insert_by]. destruct (Rltb (amplitude h) (amplitude g)); [apply Permutation_refl|]. eapply Permutation_trans; [apply perm_swap|]. apply perm_skip. exact IH.
Qed.
Lemma insert_by_sorted g l : StronglySorted (fun a b => amplitude b <= amplitude a) l -> StronglySorted (fun a b => amplitude b <= amplitude a) (insert_by g l).
Proof.
  induction 1 as [|h l SS IH F]; [repeat constructor|]. cbn [insert_by]. destruct (Rltb (amplitude h) (amplitude g)) eqn:E; [apply Rltb_true in E | apply Rltb_false in E].
  - constructor; [constructor; assumption|]. constructor; [lra|]. eapply Forall_impl; [|exact F]. cbv beta. intros a A. lra.
  - constructor; [exact IH|]. eapply Permutation_Forall; [apply insert_by_perm|]. constructor; assumption.
Qed.
Lemma by_amplitude_spec l : Permutation l (by_amplitude l) /\ StronglySorted (fun a b => amplitude b <= amplitude a) (by_amplitude l).
Proof.
  unfold by_amplitude. assert (G : forall l acc, StronglySorted (fun a b => amplitude b <= amplitude a) acc ->
    Permutation (l ++ acc) (fold_left (fun acc g => insert_by g acc) l acc) /\ StronglySorted (fun a b => amplitude b <= amplitude a) (fold_left (fun acc g => insert_by g acc) l acc)).
  { clear l. induction l as [|g l IH]; intros acc SS; [split; [apply Permutation_refl|exact SS]|]. cbn [fold_left app]. destruct (IH (insert_by g acc)) as (P & Q); [apply insert_by_sorted; exact SS|]. split; [|exact Q].
    eapply Permutation_trans; [|exact P]. eapply Permutation_trans; [apply Permutation_middle|]. apply Permutation_app_head. apply insert_by_perm. }
  destruct (G l [] (SSorted_nil _)) as (P & Q). rewrite app_nil_r in P. auto.
Qed.
Lemma py_max_move a b (y : list R) : 0 < a -> py_max (map (fun v => a * v + b) y) = bind (py_max y) (fun m => Ok (a * m + b)).
Proof.
  intros A. destruct y as [|v y]; [reflexivity|]. destruct (py_max_R (v :: y) ltac:(discriminate)) as (m & E & I & B). destruct (py_max_R (map (fun v => a * v + b) (v :: y)) ltac:(discriminate)) as (m' & E' & I' & B').
  rewrite E, E'. cbn [bind]. f_equal. apply in_map_iff in I'. destruct I' as (w & <- & W). specialize (B w W). specialize (B' (a * m + b) (in_map (fun v => a * v + b) _ _ I)). assert (a * w <= a * m) by (apply Rmult_le_compat_l; lra). lra.
Qed.
Lemma py_min_move a b (y : list R) : 0 < a -> py_min (map (fun v => a * v + b) y) = bind (py_min y) (fun m => Ok (a * m + b)).
Proof.
  intros A. destruct y as [|v y]; [reflexivity|]. destruct (py_min_R (v :: y) ltac:(discriminate)) as (m & E & I & B). destruct (py_min_R (map (fun v => a * v + b) (v :: y)) ltac:(discriminate)) as (m' & E' & I' & B').
  rewrite E, E'. cbn [bind]. f_equal. apply in_map_iff in I'. destruct I' as (w & <- & W). specialize (B w W). specialize (B' (a * m + b) (in_map (fun v => a * v + b) _ _ I)). assert (a * m <= a * w) by (apply Rmult_le_compat_l; lra). lra.
Qed.
Lemma total_move a b y : total (map (fun v => a * v + b) y) = a * total y + INR (length y) * b.
Proof. induction y as [|v y IH]; [cbn; ring|]. cbn [map length]. rewrite !total_cons, IH, S_INR. ring. Qed.
(** Samples in other units give the same mixture in those units. *)
Theorem C52_fit_units : forall round6 fit aic y n_max a b, 0 < a ->
  fit_mix_samples round6 fit aic (map (fun v => a * v + b) y) n_max
  = bind (fit_mix_samples round6 fit aic y n_max) (fun gs => Ok (map (moved a b) gs)).
Proof.
  intros round6 fit aic y n_max a b A. unfold fit_mix_samples. rewrite py_max_move, py_min_move by exact A. destruct (py_max y) as [hi|e]; [|reflexivity]. cbn [bind]. destruct (py_min y) as [lo|e]; [|reflexivity]. cbn [bind].
  replace (a * hi + b - (a * lo + b)) with (a * (hi - lo)) by ring. destruct (Reqb (hi - lo) 0) eqn:E; [apply Reqb_true in E | apply Reqb_false in E].
  - rewrite (proj2 (Reqb_true (a * (hi - lo)) 0)) by (rewrite E; ring). unfold get. rewrite nth_error_map. destruct (nth_error y 0); [|reflexivity]. cbn [option_map bind map]. unfold moved. cbn [amplitude mean stddev]. rewrite Rmult_0_r. reflexivity.
  - rewrite (proj2 (Reqb_false (a * (hi - lo)) 0)) by (intros Q; apply Rmult_integral in Q; lra). rewrite !rsum_total, total_move, map_length.
    destruct y as [|v y]; [cbn [map]|].
    + cbn [unique_count map nodup length Nat.min]. rewrite Nat.min_0_r. reflexivity.
    + set (l := v :: y) in *  . assert (LN : INR (length l) <> 0) by (apply not_0_INR; discriminate).
      replace ((a * total l + INR (length l) * b) / INR (length l)) with (a * (total l / INR (length l)) + b) by (field; exact LN). set (avg := total l / INR (length l)).
      assert (EN : map (fun v0 => (v0 - (a * avg + b)) / (a * (hi - lo))) (map (fun v0 => a * v0 + b) l) = map (fun v0 => (v0 - avg) / (hi - lo)) l) by (rewrite map_map; apply map_ext; intros w; field; lra).
      rewrite EN. match goal with |- bind ?m _ = _ => destruct m as [models|e]; [|reflexivity] end. cbn [bind]. match goal with |- bind ?m _ = _ => destruct m as [best|e]; [|reflexivity] end. cbn [bind]. destruct (get models best) as [mb|e]; [|reflexivity]. cbn [bind]. f_equal.
      rewrite <- by_amplitude_map by reflexivity. f_equal. rewrite map_map. apply map_ext. intros ((w & m) & va). unfold moved. cbn [amplitude mean stddev]. f_equal; [ring|]. rewrite !Rabs_mult, (Rabs_right a) by lra. ring.
Qed.
Print Assumptions C52_fit_units.
Lemma F2_length {X Y} (P : X -> Y -> Prop) a b : Forall2 P a b -> length a = length b.
Proof. induction 1; cbn; congruence. Qed.
Lemma nodup_map_count (f : R -> R) l : (length (nodup Req_EM_T (map f l)) <= length (nodup Req_EM_T l))%nat.
Proof.
  rewrite <- (map_length f (nodup Req_EM_T l)). apply NoDup_incl_length; [apply NoDup_nodup|]. intros x X. apply nodup_In in X. apply in_map_iff in X. destruct X as (v & <- & V). apply in_map. apply nodup_In. exact V.
Qed.
(** Constant samples: one impulse.  Otherwise the components of the fit with the
    lowest information criterion, in the units of the samples, largest amplitude
    first; never more than asked for nor than there are distinct samples. *)
Theorem C52_fit : forall round6 fit aic y n_max gs, (forall k l m, fit k l = Ok m -> length m = k) ->
  fit_mix_samples round6 fit aic y n_max = Ok gs ->
  exists lo hi, In lo y /\ In hi y /\ (forall v, In v y -> lo <= v <= hi)
    /\ ((lo = hi /\ gs = [Gaussian 1 lo 0])
        \/ (lo < hi /\ exists k m, (1 <= k <= n_max)%nat /\ (k <= length (nodup Req_EM_T y))%nat /\ length gs = k
              /\ fit k (normalised y lo hi) = Ok m
              /\ (forall j, (1 <= j <= n_max)%nat -> (j <= unique_count (map round6 (normalised y lo hi)))%nat ->
                    exists m', fit j (normalised y lo hi) = Ok m' /\ aic m (normalised y lo hi) <= aic m' (normalised y lo hi))
              /\ Permutation gs (map (fun c => Gaussian (fst (fst c)) (snd (fst c) * (hi - lo) + total y / INR (length y)) (sqrt (snd c) * (hi - lo))) m)
              /\ StronglySorted (fun a b => amplitude b <= amplitude a) gs)).
Proof.
  intros round6 fit aic y n_max gs FL E. unfold fit_mix_samples in E. destruct y as [|v y]; [discriminate E|]. set (l := v :: y) in *  .
  destruct (py_max_R l ltac:(discriminate)) as (hi & EH & IH & BH). destruct (py_min_R l ltac:(discriminate)) as (lo & EL & IL & BL). rewrite EH, EL in E. cbn [bind] in E.
  exists lo, hi. split; [exact IL|]. split; [exact IH|]. split; [intros w W; split; auto|]. destruct (Reqb (hi - lo) 0) eqn:S0; [apply Reqb_true in S0 | apply Reqb_false in S0].
  - left. split; [lra|]. cbn in E. injection E as <-. assert (v = lo) by (specialize (BH v (or_introl eq_refl)); specialize (BL v (or_introl eq_refl)); lra). subst v. reflexivity.
  - right. split; [specialize (BL hi IH); lra|]. rewrite rsum_total in E. fold (normalised l lo hi) in E. set (nl := normalised l lo hi) in *  .
    set (count := Nat.min n_max (unique_count (map round6 nl))) in *  . destruct (mapM (fun i => fit (i + 1)%nat nl) (seq 0 count)) as [models|e] eqn:EM; [|discriminate E]. cbn [bind] in E.
    assert (MS : forall i m, nth_error models i = Some m -> (i < count)%nat /\ fit (i + 1)%nat nl = Ok m).
    { assert (G : forall n b ms, mapM (fun i => fit (i + 1)%nat nl) (seq b n) = Ok ms -> forall i m, nth_error ms i = Some m -> (i < n)%nat /\ fit (b + i + 1)%nat nl = Ok m).
      { clear. induction n as [|n IHn]; intros b ms EM i m I; cbn [seq mapM] in EM; [injection EM as EM; rewrite <- EM in I; destruct i; discriminate I|].
        destruct (fit (b + 1)%nat nl) as [m0|] eqn:F; [|discriminate EM]. cbn [bind] in EM. destruct (mapM (fun i0 => fit (i0 + 1)%nat nl) (seq (S b) n)) as [ms'|] eqn:EM'; [|discriminate EM]. cbn [bind] in EM. injection EM as <-.
        destruct i as [|i]; [cbn in I; injection I as <-; split; [lia|rewrite Nat.add_0_r; exact F]|]. cbn in I. destruct (IHn (S b) ms' EM' i m I) as (P & Q). split; [lia|]. replace (b + S i + 1)%nat with (S b + i + 1)%nat by lia. exact Q. }
      exact (G count 0%nat models EM). }
    assert (LM : length models = count) by (pose proof (CdrSearchProofs.mapM_spec _ _ _ EM) as F2; apply F2_length in F2; rewrite seq_length in F2; congruence).
    destruct models as [|m0 models']; [cbn in E; discriminate E|]. set (models := m0 :: models') in *  .
    destruct (arg_best_spec Rltb Rltb_asym Rltb_neg (map (fun m => aic m nl) models)) as (best & EB & vb & VB & BB); [discriminate|]. rewrite EB in E. cbn [bind] in E.
    rewrite nth_error_map in VB. destruct (nth_error models best) as [mb|] eqn:NB; [|discriminate VB]. cbn in VB. injection VB as <-. unfold get in E. rewrite NB in E. cbn [bind] in E. match type of E with Ok (by_amplitude ?c) = _ => set (comps := c) in E end. injection E as <-.
    destruct (MS best mb NB) as (BC & FB).
    destruct (by_amplitude_spec comps) as (P & Q). exists (best + 1)%nat, mb. split; [unfold count in BC; lia|]. split.
    { apply Nat.le_trans with (unique_count (map round6 nl)); [unfold count in BC; lia|]. unfold unique_count. eapply Nat.le_trans; [apply nodup_map_count|]. apply nodup_map_count. }
    split; [rewrite <- (Permutation_length P); unfold comps; rewrite map_length; exact (FL _ _ _ FB)|]. split; [exact FB|]. split.
    { intros j J JU. destruct (nth_error models (j - 1)) as [m'|] eqn:NJ; [|apply nth_error_None in NJ; unfold count in LM; lia]. destruct (MS _ _ NJ) as (_ & FJ). replace (j - 1 + 1)%nat with j in FJ by lia. exists m'. split; [exact FJ|].
      destruct (BB (j - 1)%nat (aic m' nl)) as (R0 & _); [rewrite nth_error_map, NJ; reflexivity|]. apply Rltb_false in R0. exact R0. }
    split; [|exact Q]. eapply Permutation_trans; [apply Permutation_sym; exact P|]. unfold comps. match goal with |- Permutation ?x ?y => replace x with y; [apply Permutation_refl|] end. apply map_ext. intros ((w & m) & va). cbn [fst snd]. f_equal. symmetry. apply Rabs_right. apply Rle_ge. apply Rmult_le_pos; [apply sqrt_pos|specialize (BL hi IH); lra].
Qed.
Print Assumptions C52_fit.
Definition one_fit (k : nat) (l : list R) : result (list (R * R * R)) := Ok (repeat (1 / INR k, 0, 1) k).
Example C52_fit_example : fit_mix_samples (fun v => v) one_fit (fun m _ => INR (length m)) [0; 4; 2] 1 = Ok [Gaussian 1 2 4].
Proof.
  unfold fit_mix_samples. cbn [py_max py_min fold_left nlt NumR].
  rewrite !(proj2 (Rltb_true 0 4)), !(proj2 (Rltb_false 4 2)), !(proj2 (Rltb_false 4 0)), !(proj2 (Rltb_false 2 0)) by lra. cbn [bind]. rewrite (proj2 (Reqb_false (4 - 0) 0)) by lra.
  cbn [map]. assert (U : forall l, (1 <= length l)%nat -> (1 <= unique_count l)%nat).
  { intros l L. destruct l as [|x l]; [cbn in L; lia|]. unfold unique_count. destruct (nodup Req_EM_T (x :: l)) as [|z n] eqn:N; [|cbn; lia]. assert (I : In x (nodup Req_EM_T (x :: l))) by (apply nodup_In; left; reflexivity). rewrite N in I. destruct I. }
  cbv zeta. rewrite (Nat.min_l 1) by (apply U; cbn; lia). cbn [seq mapM]. unfold one_fit. cbn [bind Nat.add map repeat arg_best best_from get nth_error]. cbn [by_amplitude map fold_left insert_by]. f_equal. f_equal. f_equal.
  - cbn. field.
  - unfold rsum. cbn. field.
  - rewrite sqrt_1. rewrite Rabs_right; lra.
Qed.
