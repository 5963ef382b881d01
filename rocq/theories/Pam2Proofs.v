From Coq Require Import List ZArith Bool Reals Lra Lia Psatz Permutation Sorted.
Import ListNotations.
From Verif Require Import Base Num RBool LinesModel LinesSpec LinesCyModel LinesCyProofs StatsModel StatsProofs UncertainProofs MaskModel MaskProofs
  EyeModel EyeSpec EyeProofs EyeRProofs Pam2Model Pam2Spec.
Local Open Scope R_scope.

(** *** One symbol *)
Section Generic.
Context {A : Type} `{Num A}.
Definition vals (P : A -> bool) (ps : list (A * A)) : list A := map snd (filter (fun p => P (fst p)) ps).
Lemma vals_cons P t y ps : vals P ((t, y) :: ps) = (if P t then [y] else []) ++ vals P ps.
Proof. unfold vals. cbn [filter fst]. destruct (P t); reflexivity. Qed.

Lemma bin_point_eq abc level cross b t y :
  let A_ := around (neg nhalf) abc in let B_ := around nhalf abc in let C_ := around (nadd one nhalf) abc in
  bin_point abc level cross b (t, y) =
  Bins (s_a b ++ if A_ t then [y] else []) (s_b b ++ if negb (A_ t) && B_ t then [y] else [])
       (s_c b ++ if negb (A_ t) && negb (B_ t) && C_ t then [y] else [])
       (s_sym b ++ if around nhalf level t then [y] else []) (s_in_cross b ++ if around (nofZ 0) cross t then [y] else [])
       (s_sym_cross b ++ if around nhalf level t then [y] else []) (s_avg b ++ if within (nofZ 0) (nofZ 1) t then [y] else []).
Proof.
  cbv zeta.
  set (st0 := fun b => if around (neg nhalf) abc t then Bins (s_a b ++ [y]) (s_b b) (s_c b) (s_sym b) (s_in_cross b) (s_sym_cross b) (s_avg b)
           else if around nhalf abc t then Bins (s_a b) (s_b b ++ [y]) (s_c b) (s_sym b) (s_in_cross b) (s_sym_cross b) (s_avg b)
           else if around (nadd one nhalf) abc t then Bins (s_a b) (s_b b) (s_c b ++ [y]) (s_sym b) (s_in_cross b) (s_sym_cross b) (s_avg b)
           else b).
  set (st1 := fun (q : bool) b => if q then Bins (s_a b) (s_b b) (s_c b) (s_sym b ++ [y]) (s_in_cross b) (s_sym_cross b) (s_avg b) else b).
  set (st2 := fun (q : bool) b => if q then Bins (s_a b) (s_b b) (s_c b) (s_sym b) (s_in_cross b ++ [y]) (s_sym_cross b) (s_avg b) else b).
  set (st3 := fun (q : bool) b => if q then Bins (s_a b) (s_b b) (s_c b) (s_sym b) (s_in_cross b) (s_sym_cross b ++ [y]) (s_avg b) else b).
  set (st4 := fun (q : bool) b => if q then Bins (s_a b) (s_b b) (s_c b) (s_sym b) (s_in_cross b) (s_sym_cross b) (s_avg b ++ [y]) else b).
  change (bin_point abc level cross b (t, y)) with
    (st4 (within (nofZ 0) (nofZ 1) t) (st3 (around nhalf level t) (st2 (around (nofZ 0) cross t) (st1 (around nhalf level t) (st0 b))))).
  assert (E0 : st0 b = Bins (s_a b ++ if around (neg nhalf) abc t then [y] else [])
     (s_b b ++ if negb (around (neg nhalf) abc t) && around nhalf abc t then [y] else [])
     (s_c b ++ if negb (around (neg nhalf) abc t) && negb (around nhalf abc t) && around (nadd one nhalf) abc t then [y] else [])
     (s_sym b) (s_in_cross b) (s_sym_cross b) (s_avg b)).
  { unfold st0. destruct b. destruct (around (neg nhalf) abc t), (around nhalf abc t), (around (nadd one nhalf) abc t);
    cbn; rewrite ?app_nil_r; reflexivity. }
  rewrite E0. clear E0 st0.
  assert (E1 : forall q b1 b2 b3 b4 b5 b6 b7, st1 q (Bins b1 b2 b3 b4 b5 b6 b7) = Bins b1 b2 b3 (b4 ++ if q then [y] else []) b5 b6 b7)
    by (intros [] *; cbn; rewrite ?app_nil_r; reflexivity).
  assert (E2 : forall q b1 b2 b3 b4 b5 b6 b7, st2 q (Bins b1 b2 b3 b4 b5 b6 b7) = Bins b1 b2 b3 b4 (b5 ++ if q then [y] else []) b6 b7)
    by (intros [] *; cbn; rewrite ?app_nil_r; reflexivity).
  assert (E3 : forall q b1 b2 b3 b4 b5 b6 b7, st3 q (Bins b1 b2 b3 b4 b5 b6 b7) = Bins b1 b2 b3 b4 b5 (b6 ++ if q then [y] else []) b7)
    by (intros [] *; cbn; rewrite ?app_nil_r; reflexivity).
  assert (E4 : forall q b1 b2 b3 b4 b5 b6 b7, st4 q (Bins b1 b2 b3 b4 b5 b6 b7) = Bins b1 b2 b3 b4 b5 b6 (b7 ++ if q then [y] else []))
    by (intros [] *; cbn; rewrite ?app_nil_r; reflexivity).
  rewrite E1, E2, E3, E4. reflexivity.
Qed.
Lemma bins_filter abc level cross ps : forall b,
  let A_ := around (neg nhalf) abc in let B_ := around nhalf abc in let C_ := around (nadd one nhalf) abc in
  fold_left (bin_point abc level cross) ps b =
  Bins (s_a b ++ vals A_ ps)
       (s_b b ++ vals (fun t => negb (A_ t) && B_ t) ps)
       (s_c b ++ vals (fun t => negb (A_ t) && negb (B_ t) && C_ t) ps)
       (s_sym b ++ vals (around nhalf level) ps)
       (s_in_cross b ++ vals (around (nofZ 0) cross) ps)
       (s_sym_cross b ++ vals (around nhalf level) ps)
       (s_avg b ++ vals (within (nofZ 0) (nofZ 1)) ps).
Proof.
  induction ps as [|[t y] ps IH]; intros b; cbn [fold_left].
  - destruct b; unfold vals; cbn. rewrite !app_nil_r. reflexivity.
  - rewrite IH, bin_point_eq. cbv zeta. cbn [s_a s_b s_c s_sym s_in_cross s_sym_cross s_avg].
    rewrite !vals_cons, <- !app_assoc. reflexivity.
Qed.

(** Samples of a symbol whose window is inside the record. *)
Lemma symbol_points_eq (t0 y : list A) w t_sym s : (0 <= w * 2 + 1)%Z -> length t0 = Z.to_nat (w * 2 + 1) ->
  (0 <= snd s - w /\ snd s + w < Z.of_nat (length y))%Z ->
  let v := window_fb t0 y w t_sym s in
  symbol_points t0 y w t_sym s = Ok (combine (fst v) (snd v)) /\
  symbol_points_c t0 y w t_sym s = Ok (combine (fst v) (snd v)).
Proof.
  intros Hw Ht Hfit v. destruct (window_agree t0 y w t_sym s Hw Ht Hfit) as (_ & L1 & L2 & Hn). fold v in L1, L2, Hn.
  assert (G : forall (f g : nat -> result (A * A)) n, (n <= length t0)%nat ->
    (forall k, (k < n)%nat -> exists a b, nth_error (fst v) k = Some a /\ nth_error (snd v) k = Some b /\ f k = Ok (a, b)) ->
    mapM f (seq 0 n) = Ok (firstn n (combine (fst v) (snd v)))).
  { intros f g n Hn'. 
    assert (Q : forall m k, (k + m <= length t0)%nat ->
      (forall j, (k <= j < k + m)%nat -> exists a b, nth_error (fst v) j = Some a /\ nth_error (snd v) j = Some b /\ f j = Ok (a, b)) ->
      mapM f (seq k m) = Ok (firstn m (skipn k (combine (fst v) (snd v))))).
    { induction m as [|m IH]; intros k Hk Hf; [reflexivity|]. cbn [seq mapM].
      destruct (Hf k ltac:(lia)) as (a & b & Ea & Eb & Ef). rewrite Ef, IH; [|lia|intros; apply Hf; lia].
      f_equal. assert (En : nth_error (combine (fst v) (snd v)) k = Some (a, b)).
      { clear -Ea Eb. revert k Ea Eb. generalize (fst v), (snd v). intros l. induction l as [|x l IH]; intros l' [|k] Ea Eb; destruct l' as [|y' l']; cbn in *; try discriminate.
        - congruence.
        - apply IH; assumption. }
      rewrite skipn_S_tl. 
      assert (Es : skipn k (combine (fst v) (snd v)) = (a, b) :: tl (skipn k (combine (fst v) (snd v)))).
      { assert (E0 : nth_error (skipn k (combine (fst v) (snd v))) 0 = Some (a, b)) by (rewrite nth_error_skipn', Nat.add_0_r; exact En).
        destruct (skipn k (combine (fst v) (snd v))); cbn in E0; [discriminate|]. injection E0 as ->. reflexivity. }
      rewrite Es at 2. reflexivity. }
    intros Hf. rewrite (Q n 0%nat); [reflexivity|lia|]. intros; apply Hf; lia. }
  assert (Hpt : forall k, (k < length t0)%nat -> exists t0k yk,
    nth_error t0 k = Some t0k /\ nth_error (fst v) k = Some (nadd t0k (ndiv (fst s) t_sym)) /\
    nth_error (snd v) k = Some yk /\ nth_error y (Z.to_nat (snd s - w + Z.of_nat k)) = Some yk).
  { intros k Hk. destruct (nth_lt t0 k Hk) as [tk Etk]. destruct (nth_lt (snd v) k ltac:(congruence)) as [yk Eyk].
    exists tk, yk. split; [exact Etk|]. split; [unfold v, window_fb; cbn [fst]; rewrite nth_error_map, Etk; reflexivity|].
    split; [exact Eyk|]. rewrite <- Eyk, (Hn k Hk). f_equal. lia. }
  assert (El : firstn (length t0) (combine (fst v) (snd v)) = combine (fst v) (snd v)).
  { apply firstn_all2. rewrite combine_length. lia. }
  rewrite <- El. unfold symbol_points, symbol_points_c. rewrite <- Ht.
  split; apply (G _ (fun _ => Err ValueError)); try lia; intros k Hk;
    destruct (Hpt k Hk) as (tk & yk & E1 & E2 & E3 & E4); exists (nadd tk (ndiv (fst s) t_sym)), yk;
    (split; [exact E2|]; split; [exact E3|]).
  - unfold get. rewrite E1. cbn [bind]. unfold getz. rewrite (proj2 (Z.leb_le 0 (snd s - w + Z.of_nat k))) by lia.
    unfold get. rewrite E4. reflexivity.
  - rewrite cget_get by exact Hk. unfold get. rewrite E1. cbn [bind].
    replace (snd s - w + Z.of_nat k)%Z with (Z.of_nat (Z.to_nat (snd s - w + Z.of_nat k))) by lia.
    rewrite cget_get by lia. unfold get. rewrite E4. reflexivity.
Qed.
End Generic.

(** *** Windows over the reals *)
Lemma around_R c width t : around c width t = Rleb (c - width / 2) t && Rleb t (c + width / 2).
Proof. reflexivity. Qed.
Lemma around_true c width t : around c width t = true <-> c - width / 2 <= t <= c + width / 2.
Proof. rewrite around_R, andb_true_iff, !Rleb_true. reflexivity. Qed.
Lemma vals_values c width ps : vals (around c width) ps = values_in c width ps.
Proof. reflexivity. Qed.
Lemma vals_ext {A} (P Q : A -> bool) ps : (forall t, P t = Q t) -> vals P ps = vals Q ps.
Proof. intros E. unfold vals. f_equal. apply filter_ext. intros p. apply E. Qed.
Lemma neg_half : neg nhalf = - (1 / 2) :> R.
Proof. unfold neg. cbn. lra. Qed.
Lemma half_R : nhalf = 1 / 2 :> R. Proof. cbn. lra. Qed.
Lemma one_half : nadd one nhalf = 3 / 2 :> R.
Proof. unfold one. cbn. lra. Qed.

Lemma asum_R (l : list R) : asum l = rsum l.
Proof.
  unfold asum. enough (G : forall a, fold_left nadd l a = a + rsum l) by (rewrite G; cbn; ring).
  induction l as [|x l IH]; intros a; cbn [fold_left rsum fold_right]; [ring|]. rewrite IH. cbn. unfold rsum. ring.
Qed.
Lemma mean_above_R l h : l <> [] -> (mean_above l h = true <-> h < mean l).
Proof.
  intros Hl. unfold mean_above, mean. destruct l as [|x l]; [contradiction|]. rewrite asum_R, INR_IZR_INZ.
  cbn [nlt ndiv nofZ NumR]. apply Rltb_true.
Qed.
Lemma mean_above_sum l h : mean_above l h = Rltb (h * IZR (Z.of_nat (length l))) (rsum l).
Proof.
  destruct l as [|x l].
  - cbn. symmetry. apply Rltb_false. lra.
  - unfold mean_above. rewrite asum_R. cbn [nlt ndiv nofZ NumR]. set (n := IZR (Z.of_nat (length (x :: l)))).
    assert (Hn : 0 < n) by (apply IZR_lt; cbn; lia).
    destruct (Rltb h (rsum (x :: l) / n)) eqn:E; symmetry.
    + apply Rltb_true. apply Rltb_true in E. apply Rmult_lt_compat_r with (r := n) in E; [|exact Hn].
      unfold Rdiv in E. rewrite Rmult_assoc, Rinv_l, Rmult_1_r in E by lra. exact E.
    + apply Rltb_false. apply Rltb_false in E. apply Rmult_le_compat_r with (r := n) in E; [|lra].
      unfold Rdiv in E. rewrite Rmult_assoc, Rinv_l, Rmult_1_r in E by lra. exact E.
Qed.

Lemma sums_fold abc level cross (ps : list (R * R)) : forall b,
  let A_ := around (neg nhalf) abc in let B_ := around nhalf abc in let C_ := around (nadd one nhalf) abc in
  let va := vals A_ ps in let vb := vals (fun t => negb (A_ t) && B_ t) ps in
  let vc := vals (fun t => negb (A_ t) && negb (B_ t) && C_ t) ps in
  fold_left (sum_point abc level cross) ps b =
  Sums (c_a b + rsum va) (n_a b + IZR (Z.of_nat (length va)))
       (c_b b + rsum vb) (n_b b + IZR (Z.of_nat (length vb)))
       (c_c b + rsum vc) (n_c b + IZR (Z.of_nat (length vc)))
       (c_sym b ++ vals (around nhalf level) ps)
       (c_cross b ++ vals (around (nofZ 0) cross) ps)
       (c_sym_cross b ++ vals (around nhalf level) ps)
       (c_avg b ++ vals (within (nofZ 0) (nofZ 1)) ps).
Proof.
  induction ps as [|[t y] ps IH]; intros b; cbn [fold_left].
  - destruct b; unfold vals; cbn. rewrite !app_nil_r, !Rplus_0_r. reflexivity.
  - rewrite IH. cbv zeta. rewrite !vals_cons.
    assert (E : sum_point abc level cross b (t, y) =
      let A_ := around (neg nhalf) abc t in let B_ := around nhalf abc t in let C_ := around (nadd one nhalf) abc t in
      let d (q : bool) := if q then y else 0 in let c (q : bool) := if q then 1 else 0 in
      Sums (c_a b + d A_) (n_a b + c A_) (c_b b + d (negb A_ && B_)) (n_b b + c (negb A_ && B_))
           (c_c b + d (negb A_ && negb B_ && C_)) (n_c b + c (negb A_ && negb B_ && C_))
           (c_sym b ++ if around nhalf level t then [y] else []) (c_cross b ++ if around (nofZ 0) cross t then [y] else [])
           (c_sym_cross b ++ if around nhalf level t then [y] else []) (c_avg b ++ if within (nofZ 0) (nofZ 1) t then [y] else [])).
    { cbv zeta.
      set (st0 := fun b => if around (neg nhalf) abc t then
             Sums (nadd (c_a b) y) (nadd (n_a b) (nofZ 1)) (c_b b) (n_b b) (c_c b) (n_c b) (c_sym b) (c_cross b) (c_sym_cross b) (c_avg b)
           else if around nhalf abc t then
             Sums (c_a b) (n_a b) (nadd (c_b b) y) (nadd (n_b b) (nofZ 1)) (c_c b) (n_c b) (c_sym b) (c_cross b) (c_sym_cross b) (c_avg b)
           else if around (nadd one nhalf) abc t then
             Sums (c_a b) (n_a b) (c_b b) (n_b b) (nadd (c_c b) y) (nadd (n_c b) (nofZ 1)) (c_sym b) (c_cross b) (c_sym_cross b) (c_avg b)
           else b).
      set (put := fun b sym cross sym_cross avg => Sums (c_a b) (n_a b) (c_b b) (n_b b) (c_c b) (n_c b) sym cross sym_cross avg : @sums R).
      set (st1 := fun (q : bool) b => if q then put b (c_sym b ++ [y]) (c_cross b) (c_sym_cross b) (c_avg b) else b).
      set (st2 := fun (q : bool) b => if q then put b (c_sym b) (c_cross b ++ [y]) (c_sym_cross b) (c_avg b) else b).
      set (st3 := fun (q : bool) b => if q then put b (c_sym b) (c_cross b) (c_sym_cross b ++ [y]) (c_avg b) else b).
      set (st4 := fun (q : bool) b => if q then put b (c_sym b) (c_cross b) (c_sym_cross b) (c_avg b ++ [y]) else b).
      change (sum_point abc level cross b (t, y)) with
        (st4 (within (nofZ 0) (nofZ 1) t) (st3 (around nhalf level t) (st2 (around (nofZ 0) cross t) (st1 (around nhalf level t) (st0 b))))).
      assert (E0 : st0 b =
        let A_ := around (neg nhalf) abc t in let B_ := around nhalf abc t in let C_ := around (nadd one nhalf) abc t in
        let d (q : bool) := if q then y else 0 in let c (q : bool) := if q then 1 else 0 in
        Sums (c_a b + d A_) (n_a b + c A_) (c_b b + d (negb A_ && B_)) (n_b b + c (negb A_ && B_))
           (c_c b + d (negb A_ && negb B_ && C_)) (n_c b + c (negb A_ && negb B_ && C_)) (c_sym b) (c_cross b) (c_sym_cross b) (c_avg b)).
      { cbv zeta. unfold st0. destruct b. destruct (around (neg nhalf) abc t), (around nhalf abc t), (around (nadd one nhalf) abc t);
        cbn; rewrite ?Rplus_0_r; reflexivity. }
      rewrite E0. cbv zeta. clear E0 st0.
      assert (E1 : forall q a1 a2 a3 a4 a5 a6 b4 b5 b6 b7, st1 q (Sums a1 a2 a3 a4 a5 a6 b4 b5 b6 b7) = Sums a1 a2 a3 a4 a5 a6 (b4 ++ if q then [y] else []) b5 b6 b7)
        by (intros [] *; cbn; rewrite ?app_nil_r; reflexivity).
      assert (E2 : forall q a1 a2 a3 a4 a5 a6 b4 b5 b6 b7, st2 q (Sums a1 a2 a3 a4 a5 a6 b4 b5 b6 b7) = Sums a1 a2 a3 a4 a5 a6 b4 (b5 ++ if q then [y] else []) b6 b7)
        by (intros [] *; cbn; rewrite ?app_nil_r; reflexivity).
      assert (E3 : forall q a1 a2 a3 a4 a5 a6 b4 b5 b6 b7, st3 q (Sums a1 a2 a3 a4 a5 a6 b4 b5 b6 b7) = Sums a1 a2 a3 a4 a5 a6 b4 b5 (b6 ++ if q then [y] else []) b7)
        by (intros [] *; cbn; rewrite ?app_nil_r; reflexivity).
      assert (E4 : forall q a1 a2 a3 a4 a5 a6 b4 b5 b6 b7, st4 q (Sums a1 a2 a3 a4 a5 a6 b4 b5 b6 b7) = Sums a1 a2 a3 a4 a5 a6 b4 b5 b6 (b7 ++ if q then [y] else []))
        by (intros [] *; cbn; rewrite ?app_nil_r; reflexivity).
      rewrite E1, E2, E3, E4. reflexivity. }
    rewrite E. cbv zeta. cbn [c_a n_a c_b n_b c_c n_c c_sym c_cross c_sym_cross c_avg]. rewrite <- !app_assoc.
    assert (S1 : forall (q : bool) l, (if q then y else 0) + rsum l = rsum ((if q then [y] else []) ++ l)).
    { intros [] l; cbn; unfold rsum; ring. }
    assert (S2 : forall (q : bool) (l : list R), (if q then 1 else 0) + IZR (Z.of_nat (length l)) = IZR (Z.of_nat (length ((if q then [y] else []) ++ l)))).
    { intros [] l; cbn [app length]; [|ring]. rewrite Nat2Z.inj_succ, succ_IZR. ring. }
    rewrite !Rplus_assoc, !S1, !S2. reflexivity.
Qed.

(** The compiled vertical sampling agrees with the fallback. *)
Lemma sample_vertical_c_agree (y : list R) symbols (t_delta t_sym y_half lw cw : R) :
  (forall w s, get_i_width int_of_float t_sym t_delta = Ok w -> In s symbols ->
     0 <= snd s - w /\ snd s + w < Z.of_nat (length y))%Z ->
  sample_vertical_c int_of_float y symbols t_delta t_sym y_half lw cw =
  sample_vertical int_of_float y symbols t_delta t_sym y_half lw cw.
Proof.
  intros Hfit. unfold sample_vertical_c, sample_vertical.
  destruct (get_i_width int_of_float t_sym t_delta) as [w|e]; [|reflexivity]. cbn [bind].
  destruct (window_axis w t_sym t_delta) as [t0|e] eqn:Et; [|reflexivity]. cbn [bind].
  destruct (window_axis_length _ _ _ _ Et) as [H0 Hl].
  apply foldM_ext_in. intros v s Hs. unfold vertical_step_c, vertical_step.
  destruct (symbol_points_eq t0 y w t_sym s H0 Hl (Hfit w s eq_refl Hs)) as [E1 E2]. rewrite E1, E2. cbn [bind].
  rewrite sums_fold, bins_filter. cbv zeta.
  cbn [c_a n_a c_b n_b c_c n_c c_sym c_cross c_sym_cross c_avg s_a s_b s_c s_sym s_in_cross s_sym_cross s_avg app nofZ NumR].
  rewrite !mean_above_sum, !Rplus_0_l. reflexivity.
Qed.

Lemma nth_combine_In {X Y} (l : list X) : forall (l' : list Y) k a b, nth_error l k = Some a -> nth_error l' k = Some b ->
  In (a, b) (combine l l').
Proof.
  induction l as [|x l IH]; intros [|y l'] [|k] a b E1 E2; cbn in E1, E2; try discriminate; cbn [combine].
  - injection E1 as ->. injection E2 as ->. left. reflexivity.
  - right. exact (IH l' k a b E1 E2).
Qed.
(** A window of at least 1.01 sample periods contains a sample. *)
Lemma window_nonempty (t_sym t_delta : R) w t0 (y : list R) s c width : 0 < t_sym -> 0 < t_delta ->
  get_i_width int_of_float t_sym t_delta = Ok w -> window_axis w t_sym t_delta = Ok t0 ->
  (0 <= snd s - w /\ snd s + w < Z.of_nat (length y))%Z -> - t_delta < fst s <= 0 ->
  -1/2 <= c <= 3/2 -> t_delta / t_sym <= width ->
  values_in c width (points (window_fb t0 y w t_sym s)) <> [].
Proof.
  intros Hs Hd Ew Et Hfit Hoff Hc Hwidth.
  destruct (i_width_R _ _ _ Hs Hd Ew) as (Hw & _ & Hw2).
  destruct (window_axis_length _ _ _ _ Et) as [H0 Hl].
  destruct (window_agree t0 y w t_sym s H0 Hl Hfit) as (_ & L1 & L2 & _).
  set (d := t_delta / t_sym) in * . assert (Hdp : 0 < d) by (apply Rdiv_lt_0_compat; assumption).
  set (o := fst s / t_sym).
  assert (Ho : - d < o <= 0).
  { unfold o, d. split.
    - apply Rmult_lt_reg_r with t_sym; [exact Hs|]. unfold Rdiv. rewrite Ropp_mult_distr_l, !Rmult_assoc, Rinv_l by lra. lra.
    - apply Rmult_le_reg_r with t_sym; [exact Hs|]. unfold Rdiv. rewrite Rmult_assoc, Rinv_l by lra. lra. }
  assert (Hinv : t_sym / t_delta = / d) by (unfold d; field; lra). rewrite Hinv in Hw2.
  set (u := (c - 1/2 - o) / d + IZR w).
  assert (Eu : u * d = c - 1/2 - o + IZR w * d) by (unfold u; field; lra).
  assert (Hwd : IZR w * d > 1 + 3/2 * d).
  { apply Rmult_lt_compat_r with (r := d) in Hw2; [|exact Hdp]. rewrite Rmult_plus_distr_r, Rinv_l in Hw2 by lra. lra. }
  assert (Hu : 3/2 < u < 2 * IZR w - 1/2).
  { split; apply Rmult_lt_reg_r with d; try exact Hdp; rewrite Eu; [lra|].
    rewrite Rmult_minus_distr_r. lra. }
  set (k := Int_part (u + 1/2)). destruct (Int_part_bounds (u + 1/2)) as [Hk1 Hk2]. fold k in Hk1, Hk2.
  assert (Hk0 : (0 <= k)%Z) by (apply le_IZR; assert (IZR k > 1) by lra; lra).
  assert (Hkw : (k < 2 * w)%Z) by (apply lt_IZR; rewrite mult_IZR; lra).
  set (kn := Z.to_nat k).
  assert (Hkn : (kn < length t0)%nat) by (rewrite Hl; lia).
  set (v := window_fb t0 y w t_sym s) in * .
  assert (Etk : nth_error (fst v) kn = Some (1/2 + (IZR k - IZR w) * d + o)).
  { pose proof (window_time w t_sym t_delta 0 (0 + IZR (snd s) * t_delta - fst s) t0 y s kn ltac:(lia) ltac:(lra) Et Hkn eq_refl) as Q.
    fold v in Q. rewrite Q. f_equal. unfold kn. rewrite Z2Nat.id by lia. rewrite plus_IZR, minus_IZR. unfold d, o. field. lra. }
  destruct (nth_lt (snd v) kn ltac:(rewrite L2; exact Hkn)) as [yk Eyk].
  assert (Hin : In (1/2 + (IZR k - IZR w) * d + o, yk) (points v)).
  { unfold points. eapply nth_combine_In; eassumption. }
  unfold values_in. intros Q. apply map_eq_nil in Q.
  assert (Hf : In (1/2 + (IZR k - IZR w) * d + o, yk)
    (filter (fun p : R * R => Rleb (c - width / 2) (fst p) && Rleb (fst p) (c + width / 2)) (points v))).
  { apply filter_In. split; [exact Hin|]. cbn [fst]. rewrite andb_true_iff, !Rleb_true.
    assert (E : 1/2 + (IZR k - IZR w) * d + o - c = (IZR k - u) * d)
      by (replace ((IZR k - u) * d) with (IZR k * d - u * d) by ring; rewrite Eu; ring).
    assert (Hb : - (1/2) * d <= (IZR k - u) * d <= 1/2 * d) by (split; apply Rmult_le_compat_r; lra). lra. }
  rewrite Q in Hf. destruct Hf.
Qed.

Lemma abc_width_R (lw t_delta t_sym : R) : abc_width lw t_delta t_sym = Rmax lw (101 / 100 * t_delta / t_sym).
Proof.
  unfold abc_width, amax. cbn [nlt nmul ndiv nofZ NumR]. set (b := 101 / 100 * t_delta / t_sym).
  unfold Rmax. destruct (Rltb lw b) eqn:E, (Rle_dec lw b) as [Hle|Hle]; try reflexivity.
  - apply Rltb_true in E. lra.
  - apply Rltb_false in E. lra.
Qed.
Lemma seq3_eqb_dec q d : seq3_eqb q d = if decision_dec d q then true else false.
Proof. destruct q as [[[] []] []], d as [[[] []] []]; reflexivity. Qed.

Section Vertical.
Variables (y : list R) (t_delta t_sym y_half lw cw : R) (w : Z) (t0 : list R).
Hypothesis Hs : 0 < t_sym.
Hypothesis Hd : 0 < t_delta.
Hypothesis Ew : get_i_width int_of_float t_sym t_delta = Ok w.
Hypothesis Et : window_axis w t_sym t_delta = Ok t0.
Let abc := Rmax lw (101 / 100 * t_delta / t_sym).
Hypothesis Habc : abc < 1.
Definition good_symbol (s : @symbol R) : Prop :=
  (0 <= snd s - w /\ snd s + w < Z.of_nat (length y))%Z /\ - t_delta < fst s <= 0.
Let pts (s : @symbol R) := points (window_fb t0 y w t_sym s).

Definition symbol_decided (ps : list (R * R)) (d : decision) : Prop :=
  decides (-1/2) abc y_half ps (prev d) /\ decides (1/2) abc y_half ps (cur d) /\ decides (3/2) abc y_half ps (next d).

Lemma vertical_step_R v s : good_symbol s ->
  exists d, symbol_decided (pts s) d /\
  vertical_step t0 y w t_delta t_sym y_half lw cw v s =
    Ok (file v (prev d) (cur d) (next d) (values_in (1/2) lw (pts s)) (values_in 0 cw (pts s))
             (values_in (1/2) lw (pts s)) (values_in (1/2) 1 (pts s))).
Proof.
  intros [Hfit Hoff]. destruct (window_axis_length _ _ _ _ Et) as [H0 Hl].
  destruct (symbol_points_eq t0 y w t_sym s H0 Hl Hfit) as [E1 _]. unfold vertical_step. rewrite E1. cbn [bind].
  rewrite bins_filter. cbv zeta. cbn [s_a s_b s_c s_sym s_in_cross s_sym_cross s_avg app]. rewrite abc_width_R. fold abc.
  fold (points (window_fb t0 y w t_sym s)). fold (pts s).
  set (c := @nadd R NumR one nhalf). set (a := neg nhalf). set (b := nhalf).
  assert (Ea : a = -1/2) by (unfold a; rewrite neg_half; lra). assert (Eb : b = 1/2) by apply half_R.
  assert (Ec : c = 3/2) by apply one_half.
  assert (E2 : vals (fun t => negb (around a abc t) && around b abc t) (pts s) = vals (around b abc) (pts s)).
  { apply vals_ext. intros t. destruct (around a abc t) eqn:E; [|reflexivity]. apply around_true in E.
    destruct (around b abc t) eqn:E'; [|reflexivity]. apply around_true in E'. rewrite Ea in E. rewrite Eb in E'. lra. }
  assert (E3 : vals (fun t => negb (around a abc t) && negb (around b abc t) && around c abc t) (pts s) = vals (around c abc) (pts s)).
  { apply vals_ext. intros t. destruct (around c abc t) eqn:E; [|rewrite andb_false_r; reflexivity]. apply around_true in E.
    rewrite Ec in E. destruct (around a abc t) eqn:E'; [apply around_true in E'; rewrite Ea in E'; lra|].
    destruct (around b abc t) eqn:E''; [apply around_true in E''; rewrite Eb in E''; lra|]. reflexivity. }
  rewrite E2, E3, !vals_values, Ea, Eb, Ec.
  exists (mean_above (values_in (-1/2) abc (pts s)) y_half, mean_above (values_in (1/2) abc (pts s)) y_half,
          mean_above (values_in (3/2) abc (pts s)) y_half).
  assert (Hmin : t_delta / t_sym <= abc).
  { apply Rle_trans with (101 / 100 * t_delta / t_sym); [|apply Rmax_r]. unfold Rdiv.
    apply Rmult_le_compat_r; [apply Rlt_le, Rinv_0_lt_compat; exact Hs|lra]. }
  assert (Hne : forall x, -1/2 <= x <= 3/2 -> values_in x abc (pts s) <> []).
  { intros x Hx. apply (window_nonempty t_sym t_delta); assumption. }
  split.
  - unfold symbol_decided, decides, prev, cur, next. cbn [fst snd].
    split; [|split]; (split; [apply Hne; lra|apply mean_above_R, Hne; lra]).
  - cbn [prev cur next fst snd]. repeat f_equal.
    unfold vals, values_in. f_equal. apply filter_ext. intros p. unfold within. cbn [nle nofZ NumR].
    replace (1/2 - 1/2) with 0 by lra. replace (1/2 + 1/2) with 1 by lra. reflexivity.
Qed.

Definition filed (sd : @symbol R * decision) (keep : decision -> bool) (c width : R) : list R :=
  if keep (snd sd) then values_in c width (pts (fst sd)) else [].

Lemma vertical_fold symbols : (forall s, In s symbols -> good_symbol s) -> forall v, exists v' decs,
  foldM (vertical_step t0 y w t_delta t_sym y_half lw cw) v symbols = Ok v' /\
  Forall2 (fun s d => symbol_decided (pts s) d) symbols decs /\
  v_edge_dir v' = v_edge_dir v ++ map edge_of decs /\
  (forall q, v_transitions v' q = (v_transitions v q + Z.of_nat (count_occ decision_dec decs q))%Z) /\
  v_0 v' = v_0 v ++ flat_map (fun sd => filed sd (fun d => negb (cur d)) (1/2) lw) (combine symbols decs) /\
  v_1 v' = v_1 v ++ flat_map (fun sd => filed sd cur (1/2) lw) (combine symbols decs) /\
  v_cross v' = v_cross v ++ flat_map (fun sd => filed sd (fun d => xorb (prev d) (cur d)) 0 cw) (combine symbols decs) /\
  v_0_cross v' = v_0_cross v ++ flat_map (fun sd => filed sd (fun d => negb (prev d) && negb (cur d)) (1/2) lw) (combine symbols decs) /\
  v_1_cross v' = v_1_cross v ++ flat_map (fun sd => filed sd (fun d => prev d && cur d) (1/2) lw) (combine symbols decs) /\
  v_avg v' = v_avg v ++ flat_map (fun s => values_in (1/2) 1 (pts s)) symbols.
Proof.
  induction symbols as [|s symbols IH]; intros Hg v; cbn [foldM].
  - exists v, []. cbn. rewrite !app_nil_r. repeat split; try constructor. intros; lia.
  - destruct (vertical_step_R v s (Hg s (or_introl eq_refl))) as (d & Hdec & E). rewrite E.
    match goal with |- context [foldM _ ?v1 symbols] =>
      destruct (IH ltac:(intros; apply Hg; right; assumption) v1) as (v' & decs & E' & F & H1 & H2 & H3 & H4 & H5 & H6 & H7 & H8) end.
    exists v', (d :: decs). split; [exact E'|]. split; [constructor; assumption|].
    rewrite H1, H3, H4, H5, H6, H7, H8. unfold file, filed, edge_of.
    cbn [v_0 v_1 v_cross v_0_cross v_1_cross v_avg v_edge_dir v_transitions map combine flat_map fst snd].
    split; [|split].
    + rewrite <- app_assoc. f_equal. destruct (prev d), (cur d); reflexivity.
    + intros q. rewrite H2. cbn [count_occ file v_transitions]. 
      replace (prev d, cur d, next d) with d by (destruct d as [[? ?] ?]; reflexivity).
      rewrite seq3_eqb_dec. destruct (decision_dec d q); lia.
    + destruct (prev d), (cur d); cbn [negb xorb andb eqb app]; rewrite <- ?app_assoc; repeat split; reflexivity.
Qed.
End Vertical.

Lemma count_sum (l : list decision) : zsum (map (fun q => Z.of_nat (count_occ decision_dec l q)) all_decisions) = Z.of_nat (length l).
Proof.
  induction l as [|d l IH]; [reflexivity|]. cbn [length]. rewrite Nat2Z.inj_succ, <- IH.
  destruct d as [[[] []] []]; cbn [all_decisions map count_occ];
  repeat match goal with |- context [decision_dec ?a ?b] => destruct (decision_dec a b); try discriminate; try congruence end;
  rewrite ?Nat2Z.inj_succ; unfold zsum; cbn [fold_right]; lia.
Qed.

(** *** Levels: decided samples lie on their side on average *)
Lemma rsum_app l l' : rsum (l ++ l') = rsum l + rsum l'.
Proof. unfold rsum. induction l as [|x l IH]; cbn; [ring|]. rewrite IH. ring. Qed.
Lemma concat_above (ll : list (list R)) h : (forall l, In l ll -> l <> [] /\ h < mean l) -> concat ll <> [] -> h < mean (concat ll).
Proof.
  intros Hl Hne.
  assert (G : INR (length (concat ll)) * h <= rsum (concat ll) /\ (ll <> [] -> INR (length (concat ll)) * h < rsum (concat ll))).
  { clear Hne. induction ll as [|l ll IH]; cbn [concat].
    - cbn. split; [lra|]. intros []; reflexivity.
    - destruct (IH ltac:(intros; apply Hl; right; assumption)) as [H1 _].
      destruct (Hl l (or_introl eq_refl)) as [Hn Hm]. unfold mean in Hm.
      assert (Hp : 0 < INR (length l)) by (apply len_ne; exact Hn).
      apply Rmult_lt_compat_r with (r := INR (length l)) in Hm; [|exact Hp]. unfold Rdiv in Hm.
      rewrite Rmult_assoc, Rinv_l, Rmult_1_r in Hm by lra. rewrite app_length, plus_INR, rsum_app. split; intros; nra. }
  assert (Hp : 0 < INR (length (concat ll))) by (apply len_ne; exact Hne).
  unfold mean. apply Rmult_lt_reg_r with (INR (length (concat ll))); [exact Hp|].
  unfold Rdiv. rewrite Rmult_assoc, Rinv_l, Rmult_1_r by lra. rewrite Rmult_comm. apply G. intros ->. apply Hne. reflexivity.
Qed.
Lemma concat_below (ll : list (list R)) h : (forall l, In l ll -> l <> [] /\ mean l <= h) -> concat ll <> [] -> mean (concat ll) <= h.
Proof.
  intros Hl Hne.
  assert (G : rsum (concat ll) <= INR (length (concat ll)) * h).
  { clear Hne. induction ll as [|l ll IH]; cbn [concat].
    - cbn. lra.
    - specialize (IH ltac:(intros; apply Hl; right; assumption)).
      destruct (Hl l (or_introl eq_refl)) as [Hn Hm]. unfold mean in Hm.
      assert (Hp : 0 < INR (length l)) by (apply len_ne; exact Hn).
      apply Rmult_le_compat_r with (r := INR (length l)) in Hm; [|lra]. unfold Rdiv in Hm.
      rewrite Rmult_assoc, Rinv_l, Rmult_1_r in Hm by lra. rewrite app_length, plus_INR, rsum_app. nra. }
  assert (Hp : 0 < INR (length (concat ll))) by (apply len_ne; exact Hne).
  unfold mean. apply Rmult_le_reg_r with (INR (length (concat ll))); [exact Hp|].
  unfold Rdiv. rewrite Rmult_assoc, Rinv_l, Rmult_1_r by lra. rewrite (Rmult_comm h). exact G.
Qed.

(** *** Bits *)
Lemma nrzl_spec decs : forall st,
  match decs with [] => True | d :: _ => edge_of d = 0%Z -> st = Z.b2z (cur d) end -> chained decs ->
  nrzl st (map edge_of decs) = map (fun d => Z.b2z (cur d)) decs.
Proof.
  induction decs as [|d decs IH]; intros st Hst Hch; [reflexivity|]. cbn [map nrzl].
  assert (E : (if (edge_of d =? 1)%Z then 1%Z else if (edge_of d =? -1)%Z then 0%Z else st) = Z.b2z (cur d)).
  { destruct (Z.eqb_spec (edge_of d) 0) as [E0|E0].
    - rewrite E0. cbn. apply Hst. exact E0.
    - unfold edge_of in * . destruct (prev d), (cur d); cbn in * ; congruence. }
  rewrite E. f_equal. apply IH.
  - destruct decs as [|d2 decs]; [trivial|]. intros E2. assert (Hp : prev d2 = cur d) by (apply (Hch [] d d2 decs); reflexivity).
    unfold edge_of in E2. rewrite Hp in E2. destruct (cur d), (cur d2); cbn in * ; congruence.
  - intros l a b l' El. apply (Hch (d :: l) a b l'). cbn. rewrite El. reflexivity.
Qed.
Lemma first_edge decs : chained decs -> forall d l b r, decs = d :: l ->
  filter (fun b => negb (b =? 0)%Z) (map edge_of decs) = b :: r -> (if (b =? 1)%Z then 0 else 1)%Z = Z.b2z (prev d).
Proof.
  induction decs as [|d0 decs IH]; intros Hch d l b r Ed Ef; [discriminate|].
  injection Ed as -> ->. cbn [map filter] in Ef. destruct (Z.eqb_spec (edge_of d) 0) as [E0|E0]; cbn [negb] in Ef.
  - destruct l as [|d2 l]; [discriminate|].
    assert (Hp : prev d2 = cur d) by (apply (Hch [] d d2 l); reflexivity).
    rewrite (IH ltac:(intros l1 a c l2 El; apply (Hch (d :: l1) a c l2); cbn; rewrite El; reflexivity) d2 l b r eq_refl Ef), Hp.
    unfold edge_of in E0. destruct (prev d), (cur d); cbn in * ; congruence.
  - injection Ef as <- <-. unfold edge_of in * . destruct (prev d), (cur d); cbn in * ; congruence.
Qed.
Lemma bits_nrzl decs : chained decs -> (exists d, In d decs /\ edge_of d <> 0%Z) ->
  bits_of false (map edge_of decs) = map (fun d => Z.b2z (cur d)) decs.
Proof.
  intros Hch (d & Hd & He). unfold bits_of. cbv zeta.
  destruct decs as [|d0 decs]; [destruct Hd|].
  destruct (filter (fun b => negb (b =? 0)%Z) (map edge_of (d0 :: decs))) as [|b r] eqn:Ef.
  - exfalso. assert (G : In (edge_of d) []); [|destruct G]. rewrite <- Ef. apply filter_In.
    split; [apply in_map; exact Hd|]. destruct (Z.eqb_spec (edge_of d) 0); [contradiction|reflexivity].
  - apply nrzl_spec; [|exact Hch]. intros E0. pose proof (first_edge _ Hch d0 decs b r eq_refl Ef) as Q. rewrite Q.
    unfold edge_of in E0. destruct (prev d0), (cur d0); cbn in * ; congruence.
Qed.
Lemma nrzl_length st l : length (nrzl st l) = length l.
Proof. revert st. induction l; intros; cbn; [|rewrite IHl]; reflexivity. Qed.
Lemma nrzl_binary st l : (st = 0 \/ st = 1)%Z -> Forall (fun b => b = 0 \/ b = 1)%Z (nrzl st l).
Proof.
  revert st. induction l as [|e l IH]; intros st Hst; cbn; constructor.
  - destruct (e =? 1)%Z; [tauto|]. destruct (e =? -1)%Z; tauto.
  - apply IH. destruct (e =? 1)%Z; [tauto|]. destruct (e =? -1)%Z; tauto.
Qed.
(** After an edge the bit is its direction until the next edge. *)
Lemma nrzl_after st l e r k : (e = 1 \/ e = -1)%Z -> (forall i x, (i < k)%nat -> nth_error r i = Some x -> x = 0%Z) -> (k <= length r)%nat ->
  nth_error (nrzl st (l ++ e :: r)) (length l + k) = Some (if (e =? 1)%Z then 1 else 0)%Z.
Proof.
  intros He. revert st. induction l as [|x l IH]; intros st Hk Hlen; cbn [app nrzl length plus nth_error].
  - assert (G : forall k r st, (forall i x, (i < k)%nat -> nth_error r i = Some x -> x = 0%Z) -> (k <= length r)%nat ->
        nth_error (st :: nrzl st r) k = Some st).
    { clear. induction k as [|k IH]; intros r st Hk Hlen; [reflexivity|]. destruct r as [|x r]; [cbn in Hlen; lia|].
      cbn [nth_error nrzl]. rewrite (Hk 0%nat x ltac:(lia) eq_refl). cbn [Z.eqb]. apply IH; [|cbn in Hlen; lia].
      intros i z Hi. apply (Hk (S i) z). lia. }
    rewrite G by assumption. destruct He as [-> | ->]; reflexivity.
  - apply IH; assumption.
Qed.

(** *** Horizontal sampling *)
Section Horizontal.
Context {A : Type} `{Num A}.
Definition tms (c height : A) (ps : list (A * A)) : list A := map fst (filter (fun p => around c height (snd p)) ps).
Definition add_left (h : @horizontal A) l r := Horizontal (h_rise_lower h) (h_rise_upper h) (h_rise_half h) (h_fall_lower h) (h_fall_upper h) (h_fall_half h)
                 (h_left h ++ l) (h_right h ++ r).
Definition add_edge (h : @horizontal A) (e : Z) lo up ha :=
  if (e =? 1)%Z then Horizontal (h_rise_lower h ++ lo) (h_rise_upper h ++ up) (h_rise_half h ++ ha) (h_fall_lower h) (h_fall_upper h) (h_fall_half h) (h_left h) (h_right h)
  else Horizontal (h_rise_lower h) (h_rise_upper h) (h_rise_half h) (h_fall_lower h ++ lo) (h_fall_upper h ++ up) (h_fall_half h ++ ha) (h_left h) (h_right h).
Definition in_left (t : A) := within (neg nhalf) nhalf t.
Definition in_right (t : A) := negb (in_left t) && (nlt nhalf t && nle t (nadd one nhalf)).
Definition if1 (b : bool) (t : A) : list A := if b then [t] else [].
Lemma cross_point_eq yc hh h t v : cross_point yc hh h (t, v) =
  add_left h (if1 (around yc hh v && in_left t) t) (if1 (around yc hh v && in_right t) t).
Proof.
  unfold cross_point, in_right, in_left, add_left, if1. generalize (around yc hh v) (within (neg nhalf) nhalf t) (nlt nhalf t && nle t (nadd one nhalf)).
  destruct h as [x1 x2 x3 x4 x5 x6 x7 x8]. intros [] [] []; cbn [andb negb h_rise_lower h_rise_upper h_rise_half h_fall_lower h_fall_upper h_fall_half h_left h_right]; rewrite ?app_nil_r; reflexivity.
Qed.
Lemma edge_point_eq lo up hh e h t v : edge_point lo up hh e h (t, v) =
  add_edge h e (if1 (around lo hh v) t) (if1 (around up hh v) t) (if1 (around nhalf hh v) t).
Proof.
  unfold edge_point, add_edge, if1. generalize (around lo hh v) (around up hh v) (around nhalf hh v) (e =? 1)%Z.
  destruct h as [x1 x2 x3 x4 x5 x6 x7 x8]. intros [] [] [] []; cbn [h_rise_lower h_rise_upper h_rise_half h_fall_lower h_fall_upper h_fall_half h_left h_right]; rewrite ?app_nil_r; reflexivity.
Qed.
Lemma tms_cons c hh t v ps : tms c hh ((t, v) :: ps) = if1 (around c hh v) t ++ tms c hh ps.
Proof. unfold tms, if1. cbn [filter snd]. destruct (around c hh v); reflexivity. Qed.
Lemma filter_tms (P : A -> bool) c hh t v ps : filter P (tms c hh ((t, v) :: ps)) = if1 (around c hh v && P t) t ++ filter P (tms c hh ps).
Proof. rewrite tms_cons, filter_app. f_equal. unfold if1. destruct (around c hh v); cbn; [destruct (P t)|]; reflexivity. Qed.
Lemma cross_fold yc hh ps : forall h, fold_left (cross_point yc hh) ps h =
  add_left h (filter in_left (tms yc hh ps)) (filter in_right (tms yc hh ps)).
Proof.
  induction ps as [|[t v] ps IH]; intros h; cbn [fold_left].
  - destruct h as [x1 x2 x3 x4 x5 x6 x7 x8]; unfold add_left; cbn. rewrite !app_nil_r. reflexivity.
  - rewrite IH, cross_point_eq, !filter_tms. unfold add_left.
    cbn [h_rise_lower h_rise_upper h_rise_half h_fall_lower h_fall_upper h_fall_half h_left h_right]. rewrite !app_assoc. reflexivity.
Qed.
Lemma edge_fold lo up hh e ps : forall h, fold_left (edge_point lo up hh e) ps h = add_edge h e (tms lo hh ps) (tms up hh ps) (tms nhalf hh ps).
Proof.
  induction ps as [|[t v] ps IH]; intros h; cbn [fold_left].
  - destruct h as [x1 x2 x3 x4 x5 x6 x7 x8]; unfold add_edge; destruct (e =? 1)%Z; cbn; rewrite !app_nil_r; reflexivity.
  - rewrite IH, edge_point_eq, !tms_cons. unfold add_edge. destruct (e =? 1)%Z;
    cbn [h_rise_lower h_rise_upper h_rise_half h_fall_lower h_fall_upper h_fall_half h_left h_right]; rewrite !app_assoc; reflexivity.
Qed.
Definition early (p : A * A) : bool := negb (nlt nhalf (fst p)).
Lemma both_fold yc lo up hh e ps : forall h, fold_left (both_point yc lo up hh e) ps h =
  let h := add_left h (filter in_left (tms yc hh ps)) (filter in_right (tms yc hh ps)) in
  if (e =? 0)%Z then h else
  let ps := filter early ps in add_edge h e (tms lo hh ps) (tms up hh ps) (tms nhalf hh ps).
Proof.
  cbv zeta. induction ps as [|[t v] ps IH]; intros h; cbn [fold_left].
  - destruct h as [x1 x2 x3 x4 x5 x6 x7 x8]; unfold add_edge, add_left; destruct (e =? 0)%Z, (e =? 1)%Z; cbn; rewrite !app_nil_r; reflexivity.
  - rewrite IH. unfold both_point. rewrite cross_point_eq, !filter_tms. cbn [filter fst].
    change (early (t, v)) with (negb (nlt nhalf t)). destruct (e =? 0)%Z eqn:E0; cbn [orb].
    + unfold add_left. cbn [h_rise_lower h_rise_upper h_rise_half h_fall_lower h_fall_upper h_fall_half h_left h_right]. rewrite !app_assoc. reflexivity.
    + destruct (nlt nhalf t); cbn [negb].
      * unfold add_left, add_edge. cbn [h_rise_lower h_rise_upper h_rise_half h_fall_lower h_fall_upper h_fall_half h_left h_right]. rewrite !app_assoc. reflexivity.
      * rewrite edge_point_eq, !tms_cons. unfold add_left, add_edge. destruct (e =? 1)%Z;
        cbn [h_rise_lower h_rise_upper h_rise_half h_fall_lower h_fall_upper h_fall_half h_left h_right]; rewrite !app_assoc; reflexivity.
Qed.
End Horizontal.

Lemma mapM_sub {Y} (f : nat -> result Y) n : forall b l, mapM f (seq b n) = Ok l -> forall i k, (i + k <= n)%nat ->
  mapM f (seq (b + i) k) = Ok (firstn k (skipn i l)).
Proof.
  induction n as [|n IH]; intros b l E i k Hik.
  - assert (k = 0%nat) by lia. subst k. reflexivity.
  - cbn [seq mapM] in E. destruct (f b) as [x|] eqn:Ex; [|discriminate]. destruct (mapM f (seq (S b) n)) as [l'|] eqn:El; [|discriminate].
    injection E as <-. destruct i as [|i].
    + destruct k as [|k]; [reflexivity|]. rewrite Nat.add_0_r. cbn [seq mapM skipn firstn]. rewrite Ex. cbn [bind].
      pose proof (IH (S b) l' El 0%nat k ltac:(lia)) as Q. rewrite Nat.add_0_r in Q. rewrite Q. reflexivity.
    + replace (b + S i)%nat with (S b + i)%nat by lia. cbn [skipn]. apply IH; [exact El|lia].
Qed.

Lemma arg_from_spec (better : R -> R -> bool) (ge : R -> R -> Prop) :
  (forall a b, better a b = true -> ge a b) -> (forall a b, better a b = false -> ge b a) -> (forall a, ge a a) ->
  (forall a b c, ge a b -> ge b c -> ge a c) ->
  forall l all i bi b, nth_error all bi = Some b -> (forall k x, (k < i)%nat -> nth_error all k = Some x -> ge b x) ->
  (forall k, nth_error l k = nth_error all (i + k)) -> (bi < length all)%nat ->
  exists x, nth_error all (arg_from better l i bi b) = Some x /\ (arg_from better l i bi b < length all)%nat /\
    forall k z, nth_error all k = Some z -> ge x z.
Proof.
  intros B1 B2 Br Bt. induction l as [|x l IH]; intros all i bi b Hb Hbest Hl Hlen; cbn [arg_from].
  - exists b. split; [exact Hb|]. split; [exact Hlen|]. intros k z Hk. destruct (Nat.lt_ge_cases k i) as [Hki|Hki].
    + exact (Hbest k z Hki Hk).
    + specialize (Hl (k - i)%nat). replace (i + (k - i))%nat with k in Hl by lia. rewrite Hk in Hl. destruct (k - i)%nat; discriminate.
  - assert (Hx : nth_error all i = Some x) by (specialize (Hl 0%nat); rewrite Nat.add_0_r in Hl; symmetry; exact Hl).
    assert (Hl' : forall k, nth_error l k = nth_error all (S i + k)) by (intros k; specialize (Hl (S k)); cbn [nth_error] in Hl; rewrite Hl; f_equal; lia).
    destruct (better x b) eqn:E.
    + apply (IH all (S i) i x Hx); [|exact Hl'|apply nth_error_Some; rewrite Hx; discriminate].
      intros k z Hk Hz. destruct (Nat.eq_dec k i) as [->|Hne]; [rewrite Hx in Hz; injection Hz as ->; apply Br|].
      apply Bt with b; [apply B1; exact E|apply (Hbest k z); [lia|exact Hz]].
    + apply (IH all (S i) bi b Hb); [|exact Hl'|exact Hlen].
      intros k z Hk Hz. destruct (Nat.eq_dec k i) as [->|Hne]; [rewrite Hx in Hz; injection Hz as ->; apply B2; exact E|].
      apply (Hbest k z); [lia|exact Hz].
Qed.
Lemma argmin_R (l : list R) : l <> [] -> exists i x, argmin l = Ok i /\ nth_error l i = Some x /\ (i < length l)%nat /\ forall k z, nth_error l k = Some z -> x <= z.
Proof.
  destruct l as [|a l]; [intros []; reflexivity|]. intros _. cbn [argmin argbest].
  destruct (arg_from_spec (fun x b => nlt x b) (fun x z => x <= z)) with (l := l) (all := a :: l) (i := 1%nat) (bi := 0%nat) (b := a) as (x & H1 & H2 & H3).
  - intros u v Q. apply Rltb_true in Q. lra.
  - intros u v Q. apply Rltb_false in Q. lra.
  - intros; lra.
  - intros u v z H1 H2; lra.
  - reflexivity.
  - intros k x Hk E. assert (k = 0%nat) by lia. subst k. injection E as ->. lra.
  - reflexivity.
  - cbn; lia.
  - eexists _, x. repeat split; [exact H1|exact H2|exact H3].
Qed.
Lemma argmax_R (l : list R) : l <> [] -> exists i x, argmax l = Ok i /\ nth_error l i = Some x /\ (i < length l)%nat /\ forall k z, nth_error l k = Some z -> x >= z.
Proof.
  destruct l as [|a l]; [intros []; reflexivity|]. intros _. cbn [argmax argbest].
  destruct (arg_from_spec (fun x b => nlt b x) (fun x z => x >= z)) with (l := l) (all := a :: l) (i := 1%nat) (bi := 0%nat) (b := a) as (x & H1 & H2 & H3).
  - intros u v Q. apply Rltb_true in Q. lra.
  - intros u v Q. apply Rltb_false in Q. lra.
  - intros; lra.
  - intros u v z H1 H2; lra.
  - reflexivity.
  - intros k x Hk E. assert (k = 0%nat) by lia. subst k. injection E as ->. lra.
  - reflexivity.
  - cbn; lia.
  - eexists _, x. repeat split; [exact H1|exact H2|exact H3].
Qed.

Lemma tms_R c hh ps : tms c hh ps = times_at c hh ps.
Proof. reflexivity. Qed.
Lemma in_left_R t : in_left t = Rleb (-1/2) t && Rleb t (1/2).
Proof. unfold in_left, within. rewrite neg_half, half_R. cbn [nle NumR]. do 2 f_equal. lra. Qed.
Lemma in_right_R t : in_right t = Rltb (1/2) t && Rleb t (3/2).
Proof.
  unfold in_right. rewrite in_left_R, one_half, half_R. cbn [nle nlt NumR].
  destruct (Rltb (1/2) t) eqn:E; [|rewrite !andb_false_r; reflexivity]. apply Rltb_true in E.
  assert (E2 : Rleb t (1/2) = false) by (apply Rleb_false; lra). rewrite E2, andb_false_r. reflexivity.
Qed.

Lemma pyslice_nth {X} (l : list X) lo n : (0 <= lo)%Z -> (lo + Z.of_nat n <= Z.of_nat (length l))%Z ->
  length (pyslice l lo (lo + Z.of_nat n)) = n /\
  forall k, (k < n)%nat -> nth_error (pyslice l lo (lo + Z.of_nat n)) k = nth_error l (Z.to_nat lo + k).
Proof.
  intros H0 Hn. unfold pyslice, slice_index.
  destruct (Z.ltb_spec lo 0); [lia|]. destruct (Z.ltb_spec (lo + Z.of_nat n) 0); [lia|].
  rewrite !Z.min_l by lia. replace (lo + Z.of_nat n - lo)%Z with (Z.of_nat n) by lia. rewrite Nat2Z.id. split.
  - rewrite firstn_length, skipn_length. lia.
  - intros k Hk. rewrite nth_error_firstn', nth_error_skipn' by lia. reflexivity.
Qed.

Section HorizontalR.
Variables (y : list R) (t_sym yc lo up hh : R) (w : Z) (t0 : list R).
Hypothesis Hw : (0 <= w)%Z.
Hypothesis Ht0 : length t0 = Z.to_nat (w * 2 + 1).
Let pts (s : @symbol R) := points (window_fb t0 y w t_sym s).
Definition in_record (s : @symbol R) : Prop := (0 <= snd s - w /\ snd s + w < Z.of_nat (length y))%Z.

Lemma pts_nth s k : in_record s -> (k < Z.to_nat (w * 2 + 1))%nat -> exists p,
  nth_error (pts s) k = Some p /\ nth_error y (Z.to_nat (snd s - w) + k) = Some (snd p).
Proof.
  intros Hs Hk. destruct (window_agree t0 y w t_sym s ltac:(lia) Ht0 Hs) as (_ & L1 & L2 & Hn).
  assert (Hl : (k < length (pts s))%nat) by (unfold pts, points; rewrite combine_length; lia).
  destruct (nth_lt (pts s) k Hl) as [p Hp]. exists p. split; [exact Hp|].
  rewrite <- Hn by lia. unfold pts, points in Hp.
  rewrite <- (combine_snd (fst (window_fb t0 y w t_sym s)) (snd (window_fb t0 y w t_sym s))) at 1 by congruence.
  rewrite nth_error_map, Hp. reflexivity.
Qed.
Lemma extreme_slice (ge : R -> R -> Prop) s b i x : in_record s -> (0 <= b)%Z -> (b + w <= 2 * w)%Z ->
  (let l := pyslice y (snd s - w + b) (snd s + b + 1) in
   nth_error l i = Some x /\ (i < length l)%nat /\ forall k z, nth_error l k = Some z -> ge x z) ->
  extreme ge (Z.to_nat b) (Z.to_nat w) (Z.to_nat b + i) (pts s).
Proof.
  intros Hs Hb1 Hb2. pose proof Hs as [Hs1 Hs2].
  replace (snd s + b + 1)%Z with (snd s - w + b + Z.of_nat (Z.to_nat (w + 1)))%Z by lia.
  destruct (pyslice_nth y (snd s - w + b) (Z.to_nat (w + 1)) ltac:(lia) ltac:(lia)) as [Hl Hn].
  cbv zeta. rewrite Hl. intros (Hx & Hi & Hbest). rewrite Hn in Hx by exact Hi. unfold extreme. split; [lia|].
  destruct (pts_nth s (Z.to_nat b + i) Hs ltac:(lia)) as (p & Hp & Hy). exists p. split; [exact Hp|].
  intros k q Hk Hq. destruct (pts_nth s k Hs ltac:(lia)) as (q' & Hq' & Hyq). rewrite Hq in Hq'. injection Hq' as <-.
  replace (Z.to_nat (snd s - w + b) + i)%nat with (Z.to_nat (snd s - w) + (Z.to_nat b + i))%nat in Hx by lia.
  rewrite Hy in Hx. injection Hx as ->. apply (Hbest (k - Z.to_nat b)%nat). rewrite Hn by lia.
  replace (Z.to_nat (snd s - w + b) + (k - Z.to_nat b))%nat with (Z.to_nat (snd s - w) + k)%nat by lia. exact Hyq.
Qed.

Definition sampled (se : @symbol R * Z) (h h' : @horizontal R) (part : list (R * R)) : Prop :=
  h' = let h := add_left h (filter in_left (times_at yc hh (pts (fst se)))) (filter in_right (times_at yc hh (pts (fst se)))) in
       if (snd se =? 0)%Z then h else add_edge h (snd se) (times_at lo hh part) (times_at up hh part) (times_at (1/2) hh part).
Lemma horizontal_step_R h se : in_record (fst se) -> exists h' part,
  horizontal_step t0 y w t_sym yc hh lo up h se = Ok h' /\ swing (Z.to_nat w) (snd se) (pts (fst se)) part /\ sampled se h h' part.
Proof.
  destruct se as [s e]. cbn [fst snd]. intros Hs. pose proof Hs as [Hs1 Hs2]. unfold horizontal_step, sampled. cbn [fst snd].
  destruct (symbol_points_eq t0 y w t_sym s ltac:(lia) Ht0 Hs) as [E1 _]. rewrite E1. cbn [bind].
  fold (points (window_fb t0 y w t_sym s)). fold (pts s). rewrite cross_fold, !tms_R. cbv zeta.
  destruct (Z.eqb_spec e 0) as [E0|E0].
  { eexists _, []. split; [reflexivity|]. split; [|reflexivity]. intros Q. contradiction. }
  set (q := ((w * 2 + 1) / 4)%Z).
  assert (Hq : (0 <= q /\ q + w <= 2 * w)%Z).
  { unfold q. split; [apply Z.div_pos; lia|]. destruct (Z.eq_dec w 0) as [->|Hne]; [reflexivity|].
    assert ((w * 2 + 1) / 4 <= w)%Z; [|lia]. apply Z.div_le_upper_bound; lia. }
  assert (Eq : ((2 * Z.to_nat w + 1) / 4)%nat = Z.to_nat q).
  { unfold q. rewrite Z2Nat.inj_div by lia. f_equal. lia. }
  assert (Ef : pyslice y (snd s - w) (snd s + 1) = pyslice y (snd s - w + 0) (snd s + 0 + 1)) by (f_equal; lia).
  rewrite Ef. set (f := pyslice y (snd s - w + 0) (snd s + 0 + 1)). set (c := pyslice y (snd s - w + q) (snd s + q + 1)).
  assert (Lf : length f = Z.to_nat (w + 1)).
  { unfold f. replace (snd s + 0 + 1)%Z with (snd s - w + 0 + Z.of_nat (Z.to_nat (w + 1)))%Z by lia. apply pyslice_nth; lia. }
  assert (Lc : length c = Z.to_nat (w + 1)).
  { unfold c. replace (snd s + q + 1)%Z with (snd s - w + q + Z.of_nat (Z.to_nat (w + 1)))%Z by lia. apply pyslice_nth; lia. }
  assert (Nf : f <> []) by (intros Q; rewrite Q in Lf; cbn in Lf; lia).
  assert (Nc : c <> []) by (intros Q; rewrite Q in Lc; cbn in Lc; lia).
  assert (G : forall i j, (i < length f)%nat -> (j < length c)%nat ->
     mapM (fun ii : nat => bind (get t0 ii) (fun t => bind (getz y (snd s - w + Z.of_nat ii)%Z) (fun v => Ok (nadd t (ndiv (fst s) t_sym), v))))
       (seq i (S (Z.to_nat q + j) - i)) = Ok (between i (Z.to_nat q + j) (pts s))).
  { intros i j Hi Hj. unfold between. apply (mapM_sub _ _ 0%nat (pts s) E1 i).
    assert (Z.to_nat q + Z.to_nat w <= 2 * Z.to_nat w)%nat by lia. lia. }
  unfold swing. rewrite Eq.
  destruct (Z.eqb_spec e 1) as [E1'|E1'].
  - destruct (argmin_R f Nf) as (i & x & Ei & Hx & Hi & Hbest). destruct (argmax_R c Nc) as (j & x' & Ej & Hx' & Hj & Hbest').
    rewrite Ei, Ej. cbn [bind].
    match goal with |- context [bind ?x _] => change x with (mapM (fun ii : nat => bind (get t0 ii) (fun t => bind (getz y (snd s - w + Z.of_nat ii)%Z) (fun v => Ok (nadd t (ndiv (fst s) t_sym), v))))
       (seq i (S (Z.to_nat q + j) - i))) end.
    rewrite (G i j Hi Hj). cbn [bind]. eexists _, (between i (Z.to_nat q + j) (pts s)). split; [reflexivity|]. split.
    + intros _. exists i, (Z.to_nat q + j)%nat. split; [reflexivity|]. split.
      * exact (extreme_slice Rle s 0 i x Hs ltac:(lia) ltac:(lia) (conj Hx (conj Hi Hbest))).
      * exact (extreme_slice Rge s q j x' Hs ltac:(lia) ltac:(lia) (conj Hx' (conj Hj Hbest'))).
    + rewrite edge_fold, half_R. reflexivity.
  - destruct (argmax_R f Nf) as (i & x & Ei & Hx & Hi & Hbest). destruct (argmin_R c Nc) as (j & x' & Ej & Hx' & Hj & Hbest').
    rewrite Ei, Ej. cbn [bind].
    match goal with |- context [bind ?x _] => change x with (mapM (fun ii : nat => bind (get t0 ii) (fun t => bind (getz y (snd s - w + Z.of_nat ii)%Z) (fun v => Ok (nadd t (ndiv (fst s) t_sym), v))))
       (seq i (S (Z.to_nat q + j) - i))) end.
    rewrite (G i j Hi Hj). cbn [bind]. eexists _, (between i (Z.to_nat q + j) (pts s)). split; [reflexivity|]. split.
    + intros _. exists i, (Z.to_nat q + j)%nat. split; [reflexivity|]. split.
      * exact (extreme_slice Rge s 0 i x Hs ltac:(lia) ltac:(lia) (conj Hx (conj Hi Hbest))).
      * exact (extreme_slice Rle s q j x' Hs ltac:(lia) ltac:(lia) (conj Hx' (conj Hj Hbest'))).
    + rewrite edge_fold, half_R. reflexivity.
Qed.
Definition upto_half (ps : list (R * R)) := filter (fun p => Rleb (fst p) (1/2)) ps.
Lemma early_R p : @early R _ p = Rleb (fst p) (1/2).
Proof.
  unfold early. rewrite half_R. cbn [nlt NumR]. destruct (Rltb (1/2) (fst p)) eqn:E, (Rleb (fst p) (1/2)) eqn:E'; try reflexivity.
  - apply Rltb_true in E. apply Rleb_true in E'. lra.
  - apply Rltb_false in E. apply Rleb_false in E'. lra.
Qed.
Lemma horizontal_step_c_R h se : in_record (fst se) -> exists h',
  horizontal_step_c t0 y w t_sym yc hh lo up h se = Ok h' /\ sampled se h h' (upto_half (pts (fst se))).
Proof.
  destruct se as [s e]. cbn [fst snd]. intros Hs. unfold horizontal_step_c, sampled. cbn [fst snd].
  destruct (symbol_points_eq t0 y w t_sym s ltac:(lia) Ht0 Hs) as [_ E1]. rewrite E1. cbn [bind].
  fold (points (window_fb t0 y w t_sym s)). fold (pts s). rewrite both_fold. cbv zeta. rewrite !tms_R, half_R.
  eexists. split; [reflexivity|]. unfold upto_half. rewrite (filter_ext early _ early_R). reflexivity.
Qed.

Definition totals (ses : list (@symbol R * Z)) (h h' : @horizontal R) (parts : list (list (R * R))) : Prop :=
  h_rise_lower h' = h_rise_lower h ++ edge_times 1 lo hh (map snd ses) parts /\
  h_rise_upper h' = h_rise_upper h ++ edge_times 1 up hh (map snd ses) parts /\
  h_rise_half h' = h_rise_half h ++ edge_times 1 (1/2) hh (map snd ses) parts /\
  h_fall_lower h' = h_fall_lower h ++ edge_times (-1) lo hh (map snd ses) parts /\
  h_fall_upper h' = h_fall_upper h ++ edge_times (-1) up hh (map snd ses) parts /\
  h_fall_half h' = h_fall_half h ++ edge_times (-1) (1/2) hh (map snd ses) parts /\
  h_left h' = h_left h ++ flat_map (fun se => filter in_left (times_at yc hh (pts (fst se)))) ses /\
  h_right h' = h_right h ++ flat_map (fun se => filter in_right (times_at yc hh (pts (fst se)))) ses.
Lemma totals_cons se ses h h1 h2 part parts : (snd se = 0 \/ snd se = 1 \/ snd se = -1)%Z ->
  sampled se h h1 part -> totals ses h1 h2 parts -> totals (se :: ses) h h2 (part :: parts).
Proof.
  intros He Hs. unfold sampled in Hs. cbv zeta in Hs. unfold totals, edge_times. cbn [map combine flat_map fst snd].
  intros (-> & -> & -> & -> & -> & -> & -> & ->). rewrite Hs. clear Hs.
  unfold add_edge, add_left. destruct He as [-> | [-> | ->]]; cbn [Z.eqb Pos.eqb h_rise_lower h_rise_upper h_rise_half h_fall_lower h_fall_upper h_fall_half h_left h_right app];
  rewrite ?app_assoc; repeat split; reflexivity.
Qed.
Lemma horizontal_fold_R ses : (forall se, In se ses -> in_record (fst se) /\ (snd se = 0 \/ snd se = 1 \/ snd se = -1)%Z) -> forall h,
  exists h' parts, foldM (horizontal_step t0 y w t_sym yc hh lo up) h ses = Ok h' /\
    Forall2 (fun se part => swing (Z.to_nat w) (snd se) (pts (fst se)) part) ses parts /\ totals ses h h' parts.
Proof.
  induction ses as [|se ses IH]; intros Hg h; cbn [foldM].
  - exists h, []. split; [reflexivity|]. split; [constructor|]. unfold totals, edge_times. cbn. rewrite !app_nil_r. repeat split.
  - destruct (Hg se (or_introl eq_refl)) as [Hr He]. destruct (horizontal_step_R h se Hr) as (h1 & part & E & Hsw & Hsa). rewrite E.
    destruct (IH ltac:(intros; apply Hg; right; assumption) h1) as (h' & parts & E' & F & T).
    exists h', (part :: parts). split; [exact E'|]. split; [constructor; assumption|]. exact (totals_cons _ _ _ _ _ _ _ He Hsa T).
Qed.
Lemma horizontal_fold_c_R ses : (forall se, In se ses -> in_record (fst se) /\ (snd se = 0 \/ snd se = 1 \/ snd se = -1)%Z) -> forall h,
  exists h', foldM (horizontal_step_c t0 y w t_sym yc hh lo up) h ses = Ok h' /\
    totals ses h h' (map (fun se => upto_half (pts (fst se))) ses).
Proof.
  induction ses as [|se ses IH]; intros Hg h; cbn [foldM].
  - exists h. split; [reflexivity|]. unfold totals, edge_times. cbn. rewrite !app_nil_r. repeat split.
  - destruct (Hg se (or_introl eq_refl)) as [Hr He]. destruct (horizontal_step_c_R h se Hr) as (h1 & E & Hsa). rewrite E.
    destruct (IH ltac:(intros; apply Hg; right; assumption) h1) as (h' & E' & T).
    exists h'. split; [exact E'|]. exact (totals_cons _ _ _ _ _ _ _ He Hsa T).
Qed.
End HorizontalR.

(** *** Measures *)
Lemma fold_Rmax l : forall x, x <= fold_left Rmax l x /\ (forall e, In e l -> e <= fold_left Rmax l x) /\ In (fold_left Rmax l x) (x :: l).
Proof.
  induction l as [|a l IH]; intros x; cbn [fold_left]; [split; [lra|]; split; [intros e []|left; reflexivity]|].
  destruct (IH (Rmax x a)) as (H1 & H2 & H3). pose proof (Rmax_l x a). pose proof (Rmax_r x a). split; [lra|]. split.
  - intros e [->|He]; [lra|]. exact (H2 e He).
  - destruct H3 as [E|H3]; [|right; right; exact H3]. unfold Rmax in E at 1. destruct (Rle_dec x a); [right; left|left]; exact E.
Qed.
Lemma fold_Rmin l : forall x, fold_left Rmin l x <= x /\ (forall e, In e l -> fold_left Rmin l x <= e) /\ In (fold_left Rmin l x) (x :: l).
Proof.
  induction l as [|a l IH]; intros x; cbn [fold_left]; [split; [lra|]; split; [intros e []|left; reflexivity]|].
  destruct (IH (Rmin x a)) as (H1 & H2 & H3). pose proof (Rmin_l x a). pose proof (Rmin_r x a). split; [lra|]. split.
  - intros e [->|He]; [lra|]. exact (H2 e He).
  - destruct H3 as [E|H3]; [|right; right; exact H3]. unfold Rmin in E at 1. destruct (Rle_dec x a); [left|right; left]; exact E.
Qed.
Lemma ptp_spec l : l <> [] -> exists lo hi, ptp l = Some (hi - lo) /\ In lo l /\ In hi l /\ forall e, In e l -> lo <= e <= hi.
Proof.
  destruct l as [|x l]; [intros []; reflexivity|]. intros _. exists (fold_left Rmin l x), (fold_left Rmax l x).
  destruct (fold_Rmax l x) as (A1 & A2 & A3). destruct (fold_Rmin l x) as (B1 & B2 & B3).
  split; [reflexivity|]. split; [exact B3|]. split; [exact A3|]. intros e [<-|He]; [lra|]. specialize (A2 e He). specialize (B2 e He). lra.
Qed.
(** Popoviciu: the standard deviation is at most half of the range. *)
Lemma stddev_range l u lo hi : usamples l = Some u -> (forall e, In e l -> lo <= e <= hi) -> stddev u <= (hi - lo) / 2.
Proof.
  intros E Hb. assert (Hne : l <> []) by (intros ->; discriminate).
  destruct (usamples_spec l Hne) as (u' & E' & Hm & Hlo & Hp & _ & Hv & _). rewrite E in E'. injection E' as <-.
  pose proof (len_ne l Hne) as HL. specialize (Hlo lo hi Hb).
  assert (Hs : rsum (map (fun e => e ^ 2) l) <= (lo + hi) * rsum l - INR (length l) * (lo * hi)).
  { clear -Hb. induction l as [|e l IH]; cbn [map length]; [unfold rsum; cbn; lra|].
    specialize (IH ltac:(intros; apply Hb; right; assumption)). specialize (Hb e (or_introl eq_refl)).
    rewrite S_INR. unfold rsum in * . cbn [fold_right]. nra. }
  assert (Hvar : stddev u ^ 2 <= (value u - lo) * (hi - value u)).
  { rewrite Hv. apply Rmult_le_reg_r with (INR (length l)); [exact HL|].
    replace ((rsum (map (fun e => e ^ 2) l) / INR (length l) - value u ^ 2) * INR (length l))
      with (rsum (map (fun e => e ^ 2) l) - value u * (value u * INR (length l))) by (field; lra). rewrite Hm.
    replace ((value u - lo) * (hi - value u) * INR (length l)) with ((lo + hi) * (value u * INR (length l)) - value u * (value u * INR (length l)) - INR (length l) * (lo * hi)) by ring.
    rewrite Hm. lra. }
  assert (Hsq : stddev u ^ 2 <= ((hi - lo) / 2) ^ 2).
  { apply Rle_trans with (1 := Hvar). pose proof (Rle_0_sqr (value u - (lo + hi) / 2)) as Q. unfold Rsqr in Q. nra. }
  destruct (Rle_lt_dec (stddev u) ((hi - lo) / 2)) as [Hle|Hlt]; [exact Hle|]. exfalso. nra.
Qed.

Lemma Forall2_len {X Y} (P : X -> Y -> Prop) l l' : Forall2 P l l' -> length l = length l'.
Proof. induction 1; cbn; congruence. Qed.
Lemma Forall2_combine {X Y} (P : X -> Y -> Prop) l l' p : Forall2 P l l' -> In p (combine l l') -> P (fst p) (snd p).
Proof. induction 1; cbn; [intros []|]. intros [<-|Hp]; [assumption|auto]. Qed.
Lemma flat_map_if {X Y} (k : X -> bool) (f : X -> list Y) l :
  flat_map (fun x => if k x then f x else []) l = concat (map f (filter k l)).
Proof. induction l as [|x l IH]; cbn; [reflexivity|]. rewrite IH. destruct (k x); reflexivity. Qed.
