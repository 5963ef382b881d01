From Coq Require Import List ZArith Bool Lia Reals Lra Psatz.
From Verif Require Import Base Num RBool LinesGeomModel LinesSpec.
Local Open Scope R_scope.
Local Open Scope result_scope.

Definition xy (p : point2d) : point := (px p, py p).
Definition origin (p : point2d) : Prop := px p = 0 /\ py p = 0.

Lemma sq_pos p : ~ origin p -> 0 < px p ^ 2 + py p ^ 2.
Proof. unfold origin. intros H. destruct (Req_dec (px p) 0), (Req_dec (py p) 0); try tauto; nra. Qed.

Lemma norm_pos p q r : ~ origin p -> ~ origin q -> ~ origin r -> 0 < norm_cubed p q r.
Proof.
  intros Hp Hq Hr. unfold norm_cubed. apply Rmult_lt_0_compat; [apply Rmult_lt_0_compat|]; apply sq_pos; assumption.
Qed.

Lemma cube_root_pos m : 0 < m -> 0 < cube_root m.
Proof.
  intros H. unfold cube_root. rewrite (proj2 (Reqb_false m 0)) by lra. apply exp_pos.
Qed.

Lemma cube_root_cube m : 0 <= m -> cube_root m ^ 3 = m.
Proof.
  intros H. unfold cube_root. destruct (Reqb m 0) eqn:E; [apply Reqb_true in E; subst; ring|apply Reqb_false in E].
  assert (Hp : 0 < Rpower m (1 / 3)) by apply exp_pos.
  replace (Rpower m (1 / 3) ^ 3) with (Rpower m (1 / 3) * Rpower m (1 / 3) * Rpower m (1 / 3)) by ring.
  rewrite <- !Rpower_plus. replace (1 / 3 + 1 / 3 + 1 / 3) with 1 by lra. apply Rpower_1. lra.
Qed.

Lemma orientation_ok tol p q r : ~ origin p -> ~ origin q -> ~ origin r ->
  orientation tol p q r =
  Ok (if Rltb (Rabs (turn p q r / cube_root (norm_cubed p q r))) tol then 0%Z
      else sign (turn p q r / cube_root (norm_cubed p q r))).
Proof.
  intros Hp Hq Hr. unfold orientation.
  pose proof (cube_root_pos _ (norm_pos p q r Hp Hq Hr)) as Hn.
  rewrite py_div_R by lra. reflexivity.
Qed.

Lemma orientation_origin tol p q r : origin p \/ origin q \/ origin r ->
  orientation tol p q r = Err ZeroDivisionError.
Proof.
  intros H. unfold orientation.
  assert (Hn : norm_cubed p q r = 0).
  { unfold norm_cubed, origin in * . destruct H as [[-> ->]|[[-> ->]|[-> ->]]]; ring. }
  rewrite Hn. unfold cube_root. rewrite (proj2 (Reqb_true 0 0) eq_refl).
  unfold py_div. cbn. rewrite (proj2 (Reqb_true 0 0) eq_refl). reflexivity.
Qed.

Lemma sign_div x n : 0 < n -> sign (x / n) = sign x.
Proof.
  intros Hn. assert (Hx : x = x / n * n) by (field; lra). set (k := x / n) in * . unfold sign.
  destruct (Rltb k 0) eqn:E1; [apply Rltb_true in E1|apply Rltb_false in E1].
  - rewrite (proj2 (Rltb_true x 0)) by (rewrite Hx; nra). reflexivity.
  - rewrite (proj2 (Rltb_false x 0)) by (rewrite Hx; nra).
    destruct (Rltb 0 k) eqn:E2; [apply Rltb_true in E2|apply Rltb_false in E2].
    + rewrite (proj2 (Rltb_true 0 x)) by (rewrite Hx; nra). reflexivity.
    + rewrite (proj2 (Rltb_false 0 x)) by (rewrite Hx; nra). reflexivity.
Qed.

Lemma sign_opp x : sign (- x) = (- sign x)%Z.
Proof.
  unfold sign. destruct (Rltb x 0) eqn:E1, (Rltb 0 x) eqn:E2, (Rltb (-x) 0) eqn:E3, (Rltb 0 (-x)) eqn:E4;
    rewrite ?Rltb_true, ?Rltb_false in * ; try lra; reflexivity.
Qed.

Lemma turn_swap p q r : turn r q p = - turn p q r.
Proof. unfold turn. ring. Qed.
Lemma norm_swap p q r : norm_cubed r q p = norm_cubed p q r.
Proof. unfold norm_cubed. ring. Qed.

Lemma orientation_swap tol p q r o : orientation tol p q r = Ok o -> orientation tol r q p = Ok (- o)%Z.
Proof.
  unfold orientation. rewrite (turn_swap p q r), (norm_swap p q r). unfold py_div.
  destruct (neq (cube_root (norm_cubed p q r)) (nofZ 0)); cbn [bind]; intros H; [discriminate H|].
  change (@ndiv R NumR) with Rdiv in * .
  injection H as <-.
  replace (- turn p q r / cube_root (norm_cubed p q r)) with (- (turn p q r / cube_root (norm_cubed p q r)))
    by (unfold Rdiv; ring).
  rewrite Rabs_Ropp. destruct (Rltb _ tol); [reflexivity|]. rewrite sign_opp. reflexivity.
Qed.

(** The tolerance does not blur the triple: only exactly collinear points are
    reported as collinear. *)
Definition resolved (tol : R) (p q r : point2d) : Prop :=
  ~ origin p /\ ~ origin q /\ ~ origin r /\
  (turn p q r = 0 \/ tol * cube_root (norm_cubed p q r) <= Rabs (turn p q r)).

Lemma orientation_resolved tol p q r : 0 < tol -> resolved tol p q r ->
  orientation tol p q r = Ok (sign (turn p q r)).
Proof.
  intros Ht (Hp & Hq & Hr & Hres). rewrite orientation_ok by assumption. f_equal.
  pose proof (cube_root_pos _ (norm_pos p q r Hp Hq Hr)) as Hn. set (n := cube_root _) in * .
  rewrite sign_div by exact Hn.
  destruct Hres as [Hz|Hge].
  - rewrite Hz. replace (0 / n) with 0 by (field; lra). rewrite Rabs_R0.
    rewrite (proj2 (Rltb_true 0 tol)) by lra. unfold sign.
    rewrite (proj2 (Rltb_false 0 0)) by lra. reflexivity.
  - rewrite (proj2 (Rltb_false _ tol)); [reflexivity|].
    unfold Rdiv. rewrite Rabs_mult, (Rabs_right (/ n)) by (left; apply Rinv_0_lt_compat; exact Hn).
    apply Rmult_le_reg_r with n; [exact Hn|]. rewrite Rmult_assoc, Rinv_l by lra. lra.
Qed.

Lemma sign_cases x : (x < 0 /\ sign x = (-1)%Z) \/ (x = 0 /\ sign x = 0%Z) \/ (0 < x /\ sign x = 1%Z).
Proof.
  unfold sign. destruct (Rltb x 0) eqn:E1; [apply Rltb_true in E1; auto|apply Rltb_false in E1].
  destruct (Rltb 0 x) eqn:E2; [apply Rltb_true in E2; auto|apply Rltb_false in E2].
  right; left. split; [lra|reflexivity].
Qed.

Lemma in_rect_iff a s e : in_rect a s e = true <->
  Rmin (px s) (px e) <= px a <= Rmax (px s) (px e) /\ Rmin (py s) (py e) <= py a <= Rmax (py s) (py e).
Proof. unfold in_rect. rewrite !andb_true_iff, !Rleb_true. tauto. Qed.

(** k between 0 and 1: the convex combination is between the ends. *)
Lemma mid_between k a b : 0 <= k <= 1 -> Rmin a b <= a + k * (b - a) <= Rmax a b.
Proof. intros H. unfold Rmin, Rmax. destruct (Rle_dec a b); split; nra. Qed.

Lemma between_mid x a b : Rmin a b <= x <= Rmax a b -> exists k, 0 <= k <= 1 /\ x = a + k * (b - a).
Proof.
  intros H. destruct (Req_dec a b) as [->|Hne].
  - exists 0. rewrite Rmin_left, Rmax_left in H by lra. split; lra.
  - exists ((x - a) / (b - a)). split; [|field; lra].
    assert (E : x - a = (x - a) / (b - a) * (b - a)) by (field; lra). set (k := (x - a) / (b - a)) in * .
    unfold Rmin, Rmax in H. destruct (Rle_dec a b); split; nra.
Qed.

(** A point collinear with a segment and inside its bounding box is on it. *)
Lemma rect_on_segment a s e : turn s e a = 0 -> in_rect a s e = true -> on_segment (xy s) (xy e) (xy a).
Proof.
  rewrite in_rect_iff. unfold turn, on_segment, at_param, xy. cbn. intros Ht [Hx Hy].
  destruct (Req_dec (px s) (px e)) as [E|E].
  - destruct (between_mid _ _ _ Hy) as (k & Hk & Hk2). exists k. split; [exact Hk|]. split; [|exact Hk2].
    rewrite E, Rmin_left, Rmax_left in Hx by lra. rewrite E. lra.
  - destruct (between_mid _ _ _ Hx) as (k & Hk & Hk2). exists k. split; [exact Hk|]. split; [exact Hk2|].
    apply Rmult_eq_reg_l with (px e - px s); [|lra]. rewrite Hk2 in Ht. nra.
Qed.

Lemma segment_in_rect a s e : on_segment (xy s) (xy e) (xy a) -> in_rect a s e = true.
Proof.
  unfold on_segment, at_param, xy. cbn. intros (k & Hk & E1 & E2). rewrite in_rect_iff, E1, E2.
  split; apply mid_between; exact Hk.
Qed.

Lemma on_segment_end p q : on_segment p q p /\ on_segment p q q.
Proof.
  unfold on_segment, at_param. split; [exists 0|exists 1]; split; try lra; split; ring.
Qed.

(** Collinear segments sharing a point: an end of one lies on the other. *)
Lemma collinear_share a b p q x : turn a b p = 0 -> turn a b q = 0 ->
  on_segment (xy a) (xy b) x -> on_segment (xy p) (xy q) x ->
  on_segment (xy a) (xy b) (xy p) \/ on_segment (xy a) (xy b) (xy q) \/
  (on_segment (xy p) (xy q) (xy a) /\ turn p q a = 0).
Proof.
  destruct a as [a1 a2], b as [b1 b2], p as [p1 p2], q as [q1 q2], x as [x1 x2].
  unfold turn, on_segment, at_param, xy. cbn. intros Hp Hq (u & Hu & Ex1 & Ex2) (t & Ht & Et1 & Et2).
  destruct (Req_dec a1 b1) as [E1|E1]; [destruct (Req_dec a2 b2) as [E2|E2]|].
  - right; right. subst b1 b2. assert (x1 = a1) by lra. assert (x2 = a2) by lra. subst x1 x2.
    split; [exists t; repeat split; lra|].
    assert (G1 : a1 - q1 = (t - 1) * (q1 - p1)) by lra.
    assert (G2 : a2 - q2 = (t - 1) * (q2 - p2)) by lra. rewrite G1, G2. ring.
  - (* vertical line *)
    subst b1.
    assert (p1 = a1) by (apply Rmult_eq_reg_l with (b2 - a2); [nra|lra]).
    assert (q1 = a1) by (apply Rmult_eq_reg_l with (b2 - a2); [nra|lra]). subst p1 q1.
    set (al := (p2 - a2) / (b2 - a2)). set (be := (q2 - a2) / (b2 - a2)).
    assert (Hal : p2 = a2 + al * (b2 - a2)) by (unfold al; field; lra).
    assert (Hbe : q2 = a2 + be * (b2 - a2)) by (unfold be; field; lra).
    assert (Hmid : u = al + t * (be - al)).
    { apply Rmult_eq_reg_r with (b2 - a2); [|lra]. clearbody al be. rewrite Hal, Hbe in Et2. nra. }
    clearbody al be.
    destruct (Rle_lt_dec 0 al) as [H0|H0]; [destruct (Rle_lt_dec al 1) as [H1|H1]|].
    + left. exists al. repeat split; try lra.
    + destruct (Rle_lt_dec 0 be) as [H2|H2]; [destruct (Rle_lt_dec be 1) as [H3|H3]|].
      * right; left. exists be. repeat split; try lra.
      * exfalso. clear - Hmid Hu Ht H1 H3. destruct (Rle_lt_dec al be); nra.
      * right; right. split; [|ring]. exists (al / (al - be)).
        assert (0 < / (al - be)) by (apply Rinv_0_lt_compat; lra).
        assert (al / (al - be) * (al - be) = al) by (field; lra). set (k := al / (al - be)) in * .
        repeat split; try nra.
    + destruct (Rle_lt_dec 0 be) as [H2|H2]; [destruct (Rle_lt_dec be 1) as [H3|H3]|].
      * right; left. exists be. repeat split; try lra.
      * right; right. split; [|ring]. exists (al / (al - be)).
        assert (al / (al - be) * (al - be) = al) by (field; lra). set (k := al / (al - be)) in * .
        repeat split; try nra.
      * exfalso. clear - Hmid Hu Ht H0 H2. destruct (Rle_lt_dec al be); nra.
  - set (al := (p1 - a1) / (b1 - a1)). set (be := (q1 - a1) / (b1 - a1)).
    assert (Hal : p1 = a1 + al * (b1 - a1)) by (unfold al; field; lra).
    assert (Hbe : q1 = a1 + be * (b1 - a1)) by (unfold be; field; lra).
    clearbody al be.
    assert (Hal2 : p2 = a2 + al * (b2 - a2)) by (apply Rmult_eq_reg_l with (b1 - a1); [rewrite Hal in Hp; nra|lra]).
    assert (Hbe2 : q2 = a2 + be * (b2 - a2)) by (apply Rmult_eq_reg_l with (b1 - a1); [rewrite Hbe in Hq; nra|lra]).
    assert (Hmid : u = al + t * (be - al)).
    { apply Rmult_eq_reg_r with (b1 - a1); [|lra]. rewrite Hal, Hbe in Et1. nra. }
    assert (Hturn : (q2 - p2) * (a1 - q1) - (q1 - p1) * (a2 - q2) = 0).
    { rewrite Hal, Hbe, Hal2, Hbe2. ring. }
    assert (Hk : forall k, k * (al - be) = al -> a1 = p1 + k * (q1 - p1) /\ a2 = p2 + k * (q2 - p2)).
    { intros k Ek. rewrite Hal, Hbe, Hal2, Hbe2. split.
      - replace (a1 + al * (b1 - a1) + k * (a1 + be * (b1 - a1) - (a1 + al * (b1 - a1))))
          with (a1 + (al - k * (al - be)) * (b1 - a1)) by ring. rewrite Ek. ring.
      - replace (a2 + al * (b2 - a2) + k * (a2 + be * (b2 - a2) - (a2 + al * (b2 - a2))))
          with (a2 + (al - k * (al - be)) * (b2 - a2)) by ring. rewrite Ek. ring. }
    destruct (Rle_lt_dec 0 al) as [H0|H0]; [destruct (Rle_lt_dec al 1) as [H1|H1]|].
    + left. exists al. repeat split; try lra.
    + destruct (Rle_lt_dec 0 be) as [H2|H2]; [destruct (Rle_lt_dec be 1) as [H3|H3]|].
      * right; left. exists be. repeat split; try lra.
      * exfalso. clear - Hmid Hu Ht H1 H3. destruct (Rle_lt_dec al be); nra.
      * right; right. split; [|exact Hturn]. exists (al / (al - be)).
        assert (al / (al - be) * (al - be) = al) by (field; lra). set (k := al / (al - be)) in * .
        split; [clear - H H1 H2; split; nra|]. apply Hk; assumption.
    + destruct (Rle_lt_dec 0 be) as [H2|H2]; [destruct (Rle_lt_dec be 1) as [H3|H3]|].
      * right; left. exists be. repeat split; try lra.
      * right; right. split; [|exact Hturn]. exists (al / (al - be)).
        assert (al / (al - be) * (al - be) = al) by (field; lra). set (k := al / (al - be)) in * .
        split; [clear - H H0 H3; split; nra|]. apply Hk; assumption.
      * exfalso. clear - Hmid Hu Ht H0 H2. destruct (Rle_lt_dec al be); nra.
Qed.

(** Strictly separating signs on both sides give a common point. *)
Lemma general_case a b p q :
  let c1 := turn a b p in let c2 := turn a b q in let c3 := turn p q a in let c4 := turn p q b in
  c1 <> c2 -> c3 <> c4 -> c1 * c2 <= 0 -> c3 * c4 <= 0 ->
  exists x, on_segment (xy a) (xy b) x /\ on_segment (xy p) (xy q) x.
Proof.
  intros c1 c2 c3 c4 H12 H34 Hs12 Hs34.
  assert (Hopp : c3 - c4 = - (c1 - c2)) by (unfold c1, c2, c3, c4, turn; ring).
  assert (Hr : forall m n, m <> n -> m * n <= 0 -> 0 <= m / (m - n) <= 1).
  { intros m n Hmn Hle. assert (E : m / (m - n) * (m - n) = m) by (field; lra).
    set (k := m / (m - n)) in * . 
    destruct (Rlt_le_dec m n).
    - assert (m <= 0) by nra. assert (0 <= n) by nra. split; nra.
    - assert (0 <= m) by nra. assert (n <= 0) by nra. split; nra. }
  exists (px p + c1 / (c1 - c2) * (px q - px p), py p + c1 / (c1 - c2) * (py q - py p)).
  split.
  - exists (c3 / (c3 - c4)). split; [apply Hr; assumption|].
    unfold at_param, xy. cbn. rewrite Hopp.
    assert (Hd : c1 - c2 <> 0) by lra.
    split; apply Rmult_eq_reg_r with (c1 - c2); try assumption.
    + replace ((px p + c1 / (c1 - c2) * (px q - px p)) * (c1 - c2))
        with (px p * (c1 - c2) + c1 * (px q - px p)) by (field; assumption).
      replace ((px a + c3 / - (c1 - c2) * (px b - px a)) * (c1 - c2))
        with (px a * (c1 - c2) - c3 * (px b - px a)) by (field; lra).
      unfold c1, c2, c3, turn. ring.
    + replace ((py p + c1 / (c1 - c2) * (py q - py p)) * (c1 - c2))
        with (py p * (c1 - c2) + c1 * (py q - py p)) by (field; assumption).
      replace ((py a + c3 / - (c1 - c2) * (py b - py a)) * (c1 - c2))
        with (py a * (c1 - c2) - c3 * (py b - py a)) by (field; lra).
      unfold c1, c2, c3, turn. ring.
  - exists (c1 / (c1 - c2)). split; [apply Hr; assumption|]. unfold at_param, xy. cbn. split; reflexivity.
Qed.

Lemma turn_share a b p q x : on_segment (xy a) (xy b) x -> on_segment (xy p) (xy q) x ->
  exists t, 0 <= t <= 1 /\ (1 - t) * turn a b p + t * turn a b q = 0.
Proof.
  destruct x as [x1 x2]. unfold on_segment, at_param, xy, turn. cbn.
  intros (u & Hu & E1 & E2) (t & Ht & F1 & F2). exists t. split; [exact Ht|].
  assert (G1 : px p + t * (px q - px p) - px a = u * (px b - px a)) by lra.
  assert (G2 : py p + t * (py q - py p) - py a = u * (py b - py a)) by lra.
  replace ((1 - t) * ((py b - py a) * (px p - px b) - (px b - px a) * (py p - py b)) +
           t * ((py b - py a) * (px q - px b) - (px b - px a) * (py q - py b)))
    with ((py b - py a) * ((px p + t * (px q - px p) - px a) - (px b - px a)) -
          (px b - px a) * ((py p + t * (py q - py p) - py a) - (py b - py a))) by ring.
  rewrite G1, G2. ring.
Qed.

Lemma same_sign_zero a b p q x : on_segment (xy a) (xy b) x -> on_segment (xy p) (xy q) x ->
  sign (turn a b p) = sign (turn a b q) -> turn a b p = 0 /\ turn a b q = 0.
Proof.
  intros Ha Hp Hs. destruct (turn_share a b p q x Ha Hp) as (t & Ht & E).
  destruct (sign_cases (turn a b p)) as [[H1 E1]|[[H1 E1]|[H1 E1]]],
           (sign_cases (turn a b q)) as [[H2 E2]|[[H2 E2]|[H2 E2]]]; rewrite E1, E2 in Hs; try discriminate;
    try (split; assumption); exfalso; nra.
Qed.

Lemma sign_ne x y : sign x <> sign y -> x <> y /\ x * y <= 0.
Proof.
  destruct (sign_cases x) as [[H1 E1]|[[H1 E1]|[H1 E1]]], (sign_cases y) as [[H2 E2]|[[H2 E2]|[H2 E2]]];
    rewrite E1, E2; intros H; try congruence; split; nra.
Qed.

Lemma sign_zero x : sign x = 0%Z <-> x = 0.
Proof. destruct (sign_cases x) as [[H1 E1]|[[H1 E1]|[H1 E1]]]; rewrite E1; split; intros; try lia; lra. Qed.

Lemma intersecting_iff tol self p q : 0 < tol ->
  resolved tol (lp self) (lq self) p -> resolved tol (lp self) (lq self) q ->
  resolved tol p q (lp self) -> resolved tol p q (lq self) ->
  exists b, intersecting_points tol self p q = Ok b /\
    (b = true <-> exists x, on_segment (xy (lp self)) (xy (lq self)) x /\ on_segment (xy p) (xy q) x).
Proof.
  intros Ht R1 R2 R3 R4. unfold intersecting_points.
  rewrite !orientation_resolved by assumption. cbn [bind]. eexists. split; [reflexivity|].
  set (a := lp self) in * . set (b := lq self) in * . clearbody a b.
  destruct (sign (turn a b p) =? sign (turn a b q))%Z eqn:E12; [apply Z.eqb_eq in E12|apply Z.eqb_neq in E12];
  destruct (sign (turn p q a) =? sign (turn p q b))%Z eqn:E34; [apply Z.eqb_eq in E34|apply Z.eqb_neq in E34|apply Z.eqb_eq in E34|apply Z.eqb_neq in E34];
  cbn [negb andb].
  4: { split; [|reflexivity]. intros _. apply sign_ne in E12, E34. destruct E12, E34.
       apply general_case; assumption. }
  all: split.
  all: try (destruct ((sign (turn a b p) =? 0)%Z && in_rect p a b) eqn:C1;
      [intros _; apply andb_true_iff in C1; destruct C1 as [C1 C2]; apply Z.eqb_eq in C1; apply sign_zero in C1;
       exists (xy p); split; [apply rect_on_segment; assumption|apply on_segment_end]|];
    destruct ((sign (turn a b q) =? 0)%Z && in_rect q a b) eqn:C2;
      [intros _; apply andb_true_iff in C2; destruct C2 as [C2 C3]; apply Z.eqb_eq in C2; apply sign_zero in C2;
       exists (xy q); split; [apply rect_on_segment; assumption|apply on_segment_end]|];
    destruct ((sign (turn p q a) =? 0)%Z && in_rect a p q) eqn:C3;
      [intros _; apply andb_true_iff in C3; destruct C3 as [C3 C4]; apply Z.eqb_eq in C3; apply sign_zero in C3;
       exists (xy a); split; [apply on_segment_end|apply rect_on_segment; assumption]|];
    destruct ((sign (turn p q b) =? 0)%Z && in_rect b p q) eqn:C4;
      [intros _; apply andb_true_iff in C4; destruct C4 as [C4 C5]; apply Z.eqb_eq in C4; apply sign_zero in C4;
       exists (xy b); split; [apply on_segment_end|apply rect_on_segment; assumption]|discriminate]).
  all: intros (x & Hx1 & Hx2).
  1,2: destruct (same_sign_zero a b p q x Hx1 Hx2 E12) as [Z1 Z2];
    rewrite Z1, Z2; rewrite (proj2 (sign_zero 0) eq_refl); cbn [Z.eqb andb];
    destruct (collinear_share a b p q x Z1 Z2 Hx1 Hx2) as [HH|[HH|[HH Z3]]];
    [rewrite (segment_in_rect _ _ _ HH); reflexivity
    |rewrite (segment_in_rect _ _ _ HH); destruct (in_rect p a b); reflexivity
    |rewrite Z3, (proj2 (sign_zero 0) eq_refl), (segment_in_rect _ _ _ HH); cbn [Z.eqb andb];
     destruct (in_rect p a b), (in_rect q a b); reflexivity].
  destruct (same_sign_zero p q a b x Hx2 Hx1 E34) as [Z1 Z2].
  rewrite Z1, Z2, (proj2 (sign_zero 0) eq_refl). cbn [Z.eqb andb].
  destruct (collinear_share p q a b x Z1 Z2 Hx2 Hx1) as [HH|[HH|[HH Z3]]].
  - rewrite (segment_in_rect _ _ _ HH).
    destruct (_ && _); [reflexivity|]. destruct (_ && _); reflexivity.
  - rewrite (segment_in_rect _ _ _ HH).
    destruct (_ && _); [reflexivity|]. destruct (_ && _); [reflexivity|]. destruct (in_rect a p q); reflexivity.
  - rewrite Z3, (proj2 (sign_zero 0) eq_refl), (segment_in_rect _ _ _ HH). reflexivity.
Qed.

Lemma intersecting_origin tol self p q :
  origin (lp self) \/ origin (lq self) \/ origin p \/ origin q ->
  intersecting_points tol self p q = Err ZeroDivisionError.
Proof.
  intros H. unfold intersecting_points.
  assert (Hd : forall r, origin r \/ ~ origin r).
  { intros r. unfold origin. destruct (Req_dec (px r) 0), (Req_dec (py r) 0); tauto. }
  destruct (Hd (lp self)); [rewrite orientation_origin by tauto; reflexivity|].
  destruct (Hd (lq self)); [rewrite orientation_origin by tauto; reflexivity|].
  destruct (Hd p); [rewrite orientation_origin by tauto; reflexivity|].
  rewrite (orientation_ok tol (lp self) (lq self) p) by assumption. cbn [bind].
  rewrite (orientation_origin tol (lp self) (lq self) q) by tauto. reflexivity.
Qed.

(** Line intersection. *)
Lemma line_intersection_iff self l x :
  line_intersection self l = Some x <->
  ~ parallel (xy (lp self)) (xy (lq self)) (xy (lp l)) (xy (lq l)) /\
  on_line (xy (lp self)) (xy (lq self)) (xy x) /\ on_line (xy (lp l)) (xy (lq l)) (xy x).
Proof.
  destruct self as [[a1 a2] [b1 b2]], l as [[p1 p2] [q1 q2]], x as [x1 x2].
  unfold line_intersection, intersection_points, line_params, parallel, on_line, at_param, xy. cbn.
  set (det := (a2 - b2) * (q1 - p1) - (b1 - a1) * (p2 - q2)).
  assert (Hpar : (b1 - a1) * (q2 - p2) - (b2 - a2) * (q1 - p1) = det) by (unfold det; ring).
  rewrite Hpar. destruct (Reqb det 0) eqn:E; [apply Reqb_true in E|apply Reqb_false in E].
  { split; [discriminate|]. intros [H _]. contradiction. }
  split.
  - intros H. injection H as H1 H2. split; [exact E|].
    split.
    + exists (((p1 - a1) * (q2 - p2) - (p2 - a2) * (q1 - p1)) / det).
      rewrite <- H1, <- H2. split; apply Rmult_eq_reg_r with det; try assumption; unfold Rdiv;
        rewrite Rmult_plus_distr_r, ?Rmult_assoc;
        rewrite ?(Rmult_comm _ det), ?(Rmult_comm (/ det)); 
        rewrite <- ?Rmult_assoc.
      * field_simplify_eq; [unfold det; ring|assumption].
      * field_simplify_eq; [unfold det; ring|assumption].
    + exists (((p1 - a1) * (b2 - a2) - (p2 - a2) * (b1 - a1)) / det).
      rewrite <- H1, <- H2. split; field_simplify_eq; try assumption; unfold det; ring.
  - intros (_ & (u & E1 & E2) & (v & F1 & F2)).
    assert (A1 : x1 * det = (q1 - p1) * - (a1 * b2 - b1 * a2) - - (p1 * q2 - q1 * p2) * (b1 - a1)).
    { assert (L1 : (a2 - b2) * x1 + (b1 - a1) * x2 = - (a1 * b2 - b1 * a2)) by (rewrite E1, E2; ring).
      assert (L2 : (p2 - q2) * x1 + (q1 - p1) * x2 = - (p1 * q2 - q1 * p2)) by (rewrite F1, F2; ring).
      rewrite <- L1, <- L2. unfold det. ring. }
    assert (A2 : x2 * det = (a2 - b2) * - (p1 * q2 - q1 * p2) - - (a1 * b2 - b1 * a2) * (p2 - q2)).
    { assert (L1 : (a2 - b2) * x1 + (b1 - a1) * x2 = - (a1 * b2 - b1 * a2)) by (rewrite E1, E2; ring).
      assert (L2 : (p2 - q2) * x1 + (q1 - p1) * x2 = - (p1 * q2 - q1 * p2)) by (rewrite F1, F2; ring).
      rewrite <- L1, <- L2. unfold det. ring. }
    rewrite <- A1, <- A2. do 2 f_equal; field; assumption.
Qed.

(** *** the tolerance blurs small segments far from the origin *)
Lemma cube_root_ge_1 m : 1 <= m -> 1 <= cube_root m.
Proof.
  intros H. pose proof (cube_root_pos m ltac:(lra)) as Hp. pose proof (cube_root_cube m ltac:(lra)) as Hc.
  destruct (Rle_lt_dec 1 (cube_root m)) as [|Hlt]; [assumption|]. exfalso.
  set (c := cube_root m) in * . clearbody c. assert (c * c < 1) by nra.
  replace (c ^ 3) with (c * c * c) in Hc by ring. nra.
Qed.

Lemma orientation_blurred tol p q r : 1 <= norm_cubed p q r -> Rabs (turn p q r) < tol ->
  orientation tol p q r = Ok 0%Z.
Proof.
  intros Hn Ht. unfold orientation. pose proof (cube_root_ge_1 _ Hn) as Hc. set (n := cube_root _) in * .
  rewrite py_div_R by lra. cbn [bind].
  rewrite (proj2 (Rltb_true _ tol)); [reflexivity|].
  unfold Rdiv. rewrite Rabs_mult, (Rabs_right (/ n)) by (left; apply Rinv_0_lt_compat; lra).
  apply Rle_lt_trans with (2 := Ht). apply Rmult_le_reg_r with n; [lra|].
  rewrite Rmult_assoc, Rinv_l by lra. pose proof (Rabs_pos (turn p q r)). nra.
Qed.

Lemma tolerance_witness : let tol := 10 / 2 ^ 52 in
  let h := 1 / 2 ^ 27 in
  let self := Line2D (Point2D (2 - h) 2) (Point2D (2 + h) 2) in
  let p := Point2D 2 (2 - h) in let q := Point2D 2 (2 + h) in
  intersecting_points tol self p q = Ok false /\
  on_segment (xy (lp self)) (xy (lq self)) (2, 2) /\ on_segment (xy p) (xy q) (2, 2).
Proof.
  intros tol h self p q.
  assert (Hh : 0 < h < 1) by (unfold h; split; lra).
  assert (Ht : 2 * (h * h) < tol) by (unfold h, tol; lra).
  assert (Hsq : forall u v, 1 <= u -> 1 <= v -> 1 <= u ^ 2 + v ^ 2) by (intros; nra).
  assert (Hprod : forall u v w, 1 <= u -> 1 <= v -> 1 <= w -> 1 <= u * v * w).
  { intros u v w Hu Hv Hw. assert (1 <= u * v) by nra. nra. }
  clearbody tol h.
  split; [|split].
  - unfold intersecting_points, self, p, q. cbn [lp lq].
    rewrite !orientation_blurred; cbn [bind].
    + cbn [Z.eqb negb andb].
      assert (F : forall a s e, py a < py s -> py a < py e -> in_rect a s e = false).
      { intros a s e H1 H2. destruct (in_rect a s e) eqn:E; [|reflexivity]. apply in_rect_iff in E.
        unfold Rmin in E. destruct (Rle_dec (py s) (py e)), (Rle_dec (px s) (px e)); lra. }
      assert (F2 : forall a s e, py s < py a -> py e < py a -> in_rect a s e = false).
      { intros a s e H1 H2. destruct (in_rect a s e) eqn:E; [|reflexivity]. apply in_rect_iff in E.
        unfold Rmax in E. destruct (Rle_dec (py s) (py e)), (Rle_dec (px s) (px e)); lra. }
      assert (F3 : forall a s e, px a < px s -> px a < px e -> in_rect a s e = false).
      { intros a s e H1 H2. destruct (in_rect a s e) eqn:E; [|reflexivity]. apply in_rect_iff in E.
        unfold Rmin in E. destruct (Rle_dec (py s) (py e)), (Rle_dec (px s) (px e)); lra. }
      assert (F4 : forall a s e, px s < px a -> px e < px a -> in_rect a s e = false).
      { intros a s e H1 H2. destruct (in_rect a s e) eqn:E; [|reflexivity]. apply in_rect_iff in E.
        unfold Rmax in E. destruct (Rle_dec (py s) (py e)), (Rle_dec (px s) (px e)); lra. }
      rewrite F by (cbn; lra). rewrite F2 by (cbn; lra). rewrite F3 by (cbn; lra). rewrite F4 by (cbn; lra).
      reflexivity.
    + unfold norm_cubed; cbn [px py]. apply Hprod; apply Hsq; lra.
    + unfold turn; cbn [px py]. apply Rabs_def1; nra.
    + unfold norm_cubed; cbn [px py]. apply Hprod; apply Hsq; lra.
    + unfold turn; cbn [px py]. apply Rabs_def1; nra.
    + unfold norm_cubed; cbn [px py]. apply Hprod; apply Hsq; lra.
    + unfold turn; cbn [px py]. apply Rabs_def1; nra.
    + unfold norm_cubed; cbn [px py]. apply Hprod; apply Hsq; lra.
    + unfold turn; cbn [px py]. apply Rabs_def1; nra.
  - exists (1 / 2). unfold at_param, xy, self; cbn. repeat split; lra.
  - exists (1 / 2). unfold at_param, xy, p, q; cbn. repeat split; lra.
Qed.
