From Coq Require Import List ZArith Bool Lia Reals Lra Psatz.
Import ListNotations.
From Verif Require Import Base Num RBool MaskModel MaskSpec.
Local Open Scope R_scope.

(** * Unit conversion *)
Lemma convert_R m u : (u <> 0 \/ exists a, m = Plain a) -> convert (A := R) m u = Ok (Plain (in_units m u)).
Proof.
  intros Hu. destruct m as [a|a]; cbn; [reflexivity|]. destruct Hu as [Hu|[b Hb]]; [|discriminate].
  rewrite py_div_R by exact Hu. reflexivity.
Qed.
Lemma convert_zero a : convert (A := R) (RealUnits a) 0 = Err ZeroDivisionError.
Proof. cbn. unfold py_div. cbn. rewrite (proj2 (Reqb_true 0 0) eq_refl). reflexivity. Qed.

Lemma half_R : (/ 2 = 1 / 2)%R. Proof. lra. Qed.

Lemma pair_eq (a b c d : R) : a = c -> b = d -> (a, b) = (c, d).
Proof. congruence. Qed.
Lemma cons_eq {T} (a b : T) l l' : a = b -> l = l' -> a :: l = b :: l'.
Proof. congruence. Qed.
Ltac peq := repeat (apply cons_eq); try reflexivity; apply pair_eq; cbn; lra.

Lemma hex_convert_ok (m : hexagon R) ua ui : ua <> 0 -> ui <> 0 ->
  exists m', hex_convert m ua ui = Ok m' /\ hzero m' = hzero m /\
    hex_get_paths m' = Ok (drawn_hexagon (hzero m) (in_units (hx1 m) ui) (in_units (hx2 m) ui)
      (in_units (hy1 m) ua) (in_units (hyl m) ua) (in_units (hyu m) ua)).
Proof.
  intros Ha Hi. unfold hex_convert. rewrite !convert_R by (left; assumption). cbn [bind].
  eexists. split; [reflexivity|]. split; [reflexivity|].
  unfold hex_get_paths, get_paths, hex_paths, limit_paths, drawn_hexagon, drawn_limits, drawn_high, drawn_low,
    drawn_upper, drawn_lower, one, neg.
  destruct (hzero m); cbn [hconv hx1 hx2 hy1 hyl hyu val nhalf nofZ nadd nsub NumR]; f_equal; peq.
Qed.
Lemma dec_convert_ok (m : decagon R) ua ui : ua <> 0 -> ui <> 0 ->
  exists m', dec_convert m ua ui = Ok m' /\ dzero m' = dzero m /\
    dec_get_paths m' = Ok (drawn_decagon (dzero m) (in_units (dx1 m) ui) (in_units (dx2 m) ui) (in_units (dx3 m) ui)
      (in_units (dy1 m) ua) (in_units (dy2 m) ua) (in_units (dyl m) ua) (in_units (dyu m) ua)).
Proof.
  intros Ha Hi. unfold dec_convert. rewrite !convert_R by (left; assumption). cbn [bind].
  eexists. split; [reflexivity|]. split; [reflexivity|].
  unfold dec_get_paths, get_paths, dec_paths, limit_paths, drawn_decagon, drawn_limits, drawn_high, drawn_low,
    drawn_upper, drawn_lower, one, neg.
  destruct (dzero m); cbn [dconv dx1 dx2 dx3 dy1 dy2 dyl dyu val nhalf nofZ nadd nsub NumR]; f_equal; peq.
Qed.

Lemma bind_ok {X Y} (r : result X) (f : X -> result Y) y : bind r f = Ok y -> exists x, r = Ok x /\ f x = Ok y.
Proof. destruct r; [eauto|discriminate]. Qed.
Lemma convert_plain (m m' : mixed R) u : convert m u = Ok m' -> exists a, m' = Plain a.
Proof.
  destruct m as [a|a]; cbn; [intros [= <-]; eauto|]. intros E. apply bind_ok in E. destruct E as (v & _ & [= <-]). eauto.
Qed.
Ltac unbind H := repeat (let x := fresh "x" in let E := fresh "E" in
  apply bind_ok in H; destruct H as (x & E & H)).

Lemma hex_convert_idem (m m1 : hexagon R) ua ui : hzero m = true -> hex_convert m ua ui = Ok m1 ->
  forall ua' ui', hex_convert m1 ua' ui' = Ok m1.
Proof.
  intros Hz H ua' ui'. unfold hex_convert in H. rewrite Hz in H. unbind H. injection H as <-.
  repeat match goal with E : convert _ _ = Ok _ |- _ => apply convert_plain in E; destruct E as [? ->] end.
  reflexivity.
Qed.
Lemma dec_convert_idem (m m1 : decagon R) ua ui : dzero m = true -> dec_convert m ua ui = Ok m1 ->
  forall ua' ui', dec_convert m1 ua' ui' = Ok m1.
Proof.
  intros Hz H ua' ui'. unfold dec_convert in H. rewrite Hz in H. unbind H. injection H as <-.
  repeat match goal with E : convert _ _ = Ok _ |- _ => apply convert_plain in E; destruct E as [? ->] end.
  reflexivity.
Qed.

(** * Geometry of the central outline *)
(** Quarter profile in distances from the centre. *)
Definition profile (a1 a2 a3 b1 b2 u v : R) : Prop :=
  0 <= u /\
  ((exists t, 0 <= t <= 1 /\ u = a1 - t * (a1 - a2) /\ v = t * b2) \/
   (exists t, 0 <= t <= 1 /\ u = a2 - t * (a2 - a3) /\ v = b2 + t * (b1 - b2)) \/
   (v = b1 /\ u <= a3)).

Definition dec_center (x1 x2 x3 y1 y2 : R) : list (R * R) :=
  [ (x1, /2); (x2, 1 - y2); (x3, 1 - y1); (1 - x3, 1 - y1); (1 - x2, 1 - y2);
    (1 - x1, /2); (1 - x2, y2); (1 - x3, y1); (x3, y1); (x2, y2); (x1, /2) ].
Definition hex_center (x1 x2 y1 : R) : list (R * R) :=
  [ (x1, /2); (x2, 1 - y1); (1 - x2, 1 - y1); (1 - x1, /2); (1 - x2, y1); (x2, y1); (x1, /2) ].

Ltac abs_le := unfold Rabs; repeat (destruct (Rcase_abs _)); lra.

Lemma abs_neg z : z <= 0 -> Rabs z = - z. Proof. intros; abs_le. Qed.
Lemma abs_pos z : 0 <= z -> Rabs z = z. Proof. intros; abs_le. Qed.

Section Outline.
Variables x1 x2 x3 y1 y2 : R.
Hypothesis Hx : x1 <= x2 <= x3 /\ x3 <= /2.
Hypothesis Hy : y1 <= y2 <= /2.
Let P := profile (/2 - x1) (/2 - x2) (/2 - x3) (/2 - y1) (/2 - y2).

Lemma mul_le t a b : 0 <= t <= 1 -> a <= b -> 0 <= t * (b - a) <= b - a.
Proof. intros. nra. Qed.

Lemma on_dec_profile X Y : on_path (dec_center x1 x2 x3 y1 y2) (X, Y) -> P (Rabs (X - /2)) (Rabs (Y - /2)).
Proof.
  unfold dec_center. cbn [on_path]. unfold on_seg. cbn [fst snd]. unfold P, profile.
  pose proof (Rabs_pos (X - /2)) as Hp.
  intros H. split; [exact Hp|]. clear Hp.
  repeat (destruct H as [(t & Ht & EX & EY)|H]); [..|destruct H].
  - left. exists t. pose proof (mul_le t x1 x2 Ht ltac:(lra)). pose proof (mul_le t y2 (/2) Ht ltac:(lra)).
    split; [exact Ht|]. rewrite (abs_neg (X - /2)), (abs_pos (Y - /2)) by lra. split; lra.
  - right; left. exists t. pose proof (mul_le t x2 x3 Ht ltac:(lra)). pose proof (mul_le t y1 y2 Ht ltac:(lra)).
    split; [exact Ht|]. rewrite (abs_neg (X - /2)), (abs_pos (Y - /2)) by lra. split; lra.
  - right; right. pose proof (mul_le t x3 (1 - x3) Ht ltac:(lra)).
    rewrite (abs_pos (Y - /2)) by lra. split; [lra|]. abs_le.
  - right; left. exists (1 - t). pose proof (mul_le t x2 x3 Ht ltac:(lra)). pose proof (mul_le t y1 y2 Ht ltac:(lra)).
    split; [lra|]. rewrite (abs_pos (X - /2)), (abs_pos (Y - /2)) by lra. split; lra.
  - left. exists (1 - t). pose proof (mul_le t x1 x2 Ht ltac:(lra)). pose proof (mul_le t y2 (/2) Ht ltac:(lra)).
    split; [lra|]. rewrite (abs_pos (X - /2)), (abs_pos (Y - /2)) by lra. split; lra.
  - left. exists t. pose proof (mul_le t x1 x2 Ht ltac:(lra)). pose proof (mul_le t y2 (/2) Ht ltac:(lra)).
    split; [exact Ht|]. rewrite (abs_pos (X - /2)), (abs_neg (Y - /2)) by lra. split; lra.
  - right; left. exists t. pose proof (mul_le t x2 x3 Ht ltac:(lra)). pose proof (mul_le t y1 y2 Ht ltac:(lra)).
    split; [exact Ht|]. rewrite (abs_pos (X - /2)), (abs_neg (Y - /2)) by lra. split; lra.
  - right; right. pose proof (mul_le t x3 (1 - x3) Ht ltac:(lra)).
    rewrite (abs_neg (Y - /2)) by lra. split; [lra|]. abs_le.
  - right; left. exists (1 - t). pose proof (mul_le t x2 x3 Ht ltac:(lra)). pose proof (mul_le t y1 y2 Ht ltac:(lra)).
    split; [lra|]. rewrite (abs_neg (X - /2)), (abs_neg (Y - /2)) by lra. split; lra.
  - left. exists (1 - t). pose proof (mul_le t x1 x2 Ht ltac:(lra)). pose proof (mul_le t y2 (/2) Ht ltac:(lra)).
    split; [lra|]. rewrite (abs_neg (X - /2)), (abs_neg (Y - /2)) by lra. split; lra.
Qed.

Lemma t_of (a b u : R) : a <= u <= b -> exists t, 0 <= t <= 1 /\ u = a + t * (b - a).
Proof.
  intros H. destruct (Req_EM_T a b) as [E|E].
  - exists 0. split; lra.
  - exists ((u - a) / (b - a)). split.
    + split; [apply Rmult_le_pos; [lra|left; apply Rinv_0_lt_compat; lra]|].
      apply Rmult_le_reg_r with (b - a); [lra|]. unfold Rdiv. rewrite Rmult_assoc, Rinv_l by lra. lra.
    + field. lra.
Qed.

Lemma profile_on_dec X Y : P (Rabs (X - /2)) (Rabs (Y - /2)) -> on_path (dec_center x1 x2 x3 y1 y2) (X, Y).
Proof.
  unfold P, profile. intros [_ H]. unfold dec_center. cbn [on_path]. unfold on_seg. cbn [fst snd].
  destruct (Rle_lt_dec (/2) Y) as [HY|HY]; [rewrite (abs_pos (Y - /2)) in H by lra|rewrite (abs_neg (Y - /2)) in H by lra];
  (destruct (Rle_lt_dec (/2) X) as [HX|HX]; [rewrite (abs_pos (X - /2)) in H by lra|rewrite (abs_neg (X - /2)) in H by lra]);
  destruct H as [(t & Ht & EX & EY)|[(t & Ht & EX & EY)|[EY EX]]].
  - do 4 right; left. exists (1 - t). split; [lra|split; lra].
  - do 3 right; left. exists (1 - t). split; [lra|split; lra].
  - destruct (t_of x3 (1 - x3) X ltac:(lra)) as (t & Ht & E). do 2 right; left. exists t. split; [exact Ht|split; lra].
  - left. exists t. split; [exact Ht|split; lra].
  - right; left. exists t. split; [exact Ht|split; lra].
  - destruct (t_of x3 (1 - x3) X ltac:(lra)) as (t & Ht & E). do 2 right; left. exists t. split; [exact Ht|split; lra].
  - do 5 right; left. exists t. split; [exact Ht|split; lra].
  - do 6 right; left. exists t. split; [exact Ht|split; lra].
  - destruct (t_of x3 (1 - x3) X ltac:(lra)) as (t & Ht & E). do 7 right; left. exists (1 - t). split; [lra|split; lra].
  - do 9 right; left. exists (1 - t). split; [lra|split; lra].
  - do 8 right; left. exists (1 - t). split; [lra|split; lra].
  - destruct (t_of x3 (1 - x3) X ltac:(lra)) as (t & Ht & E). do 7 right; left. exists (1 - t). split; [lra|split; lra].
Qed.
End Outline.

Lemma on_hex_dec x1 x2 y1 r : on_path (hex_center x1 x2 y1) r <-> on_path (dec_center x1 x2 x2 y1 y1) r.
Proof.
  unfold hex_center, dec_center. cbn [on_path]. unfold on_seg. cbn [fst snd].
  assert (Hd : forall p q : R, (exists t, 0 <= t <= 1 /\ fst r = p + t * (p - p) /\ snd r = q + t * (q - q)) ->
    fst r = p /\ snd r = q) by (intros p q (t & _ & E1 & E2); split; lra).
  split; intros H.
  - repeat (destruct H as [H|H]); tauto.
  - repeat (destruct H as [H|H]); try tauto.
    + apply Hd in H as [E1 E2]. left. exists 1. split; lra.
    + apply Hd in H as [E1 E2]. right. left. exists 1. split; lra.
    + apply Hd in H as [E1 E2]. do 3 right. left. exists 1. split; lra.
    + apply Hd in H as [E1 E2]. do 4 right. left. exists 1. split; lra.
Qed.

Lemma profile_down a1 a2 a3 b1 b2 u v s : a3 <= a2 <= a1 -> 0 <= a3 -> 0 <= b2 <= b1 -> 0 <= s <= 1 ->
  profile a1 a2 a3 b1 b2 u v -> exists u', u <= u' /\ profile a1 a2 a3 b1 b2 u' (s * v).
Proof.
  intros Ha H3 Hb Hs [Hu H].
  assert (Hlow : forall w, 0 <= w <= b2 -> exists u', a2 <= u' <= a1 /\ profile a1 a2 a3 b1 b2 u' w).
  { intros w Hw. destruct (t_of 0 b2 w ltac:(lra)) as (t & Ht & E).
    pose proof (mul_le t a2 a1 Ht ltac:(lra)). exists (a1 - t * (a1 - a2)). split; [lra|].
    split; [lra|]. left. exists t. split; [exact Ht|]. split; lra. }
  assert (Hmid : forall w, b2 <= w <= b1 -> exists u' t, 0 <= t <= 1 /\ w = b2 + t * (b1 - b2) /\
     u' = a2 - t * (a2 - a3) /\ profile a1 a2 a3 b1 b2 u' w).
  { intros w Hw. destruct (t_of b2 b1 w ltac:(lra)) as (t & Ht & E).
    pose proof (mul_le t a3 a2 Ht ltac:(lra)). exists (a2 - t * (a2 - a3)), t. split; [exact Ht|]. split; [exact E|].
    split; [reflexivity|]. split; [lra|]. right; left. exists t. split; [exact Ht|]. split; lra. }
  destruct H as [(t & Ht & Eu & Ev)|[(t & Ht & Eu & Ev)|[Ev Eu]]].
  - exists (a1 - (s * t) * (a1 - a2)). assert (0 <= s * t <= t) by nra.
    assert (u <= a1 - s * t * (a1 - a2)) by nra. split; [assumption|]. split; [lra|].
    left. exists (s * t). split; [lra|]. split; [reflexivity|]. rewrite Ev. ring.
  - pose proof (mul_le t a3 a2 Ht ltac:(lra)) as Hm. pose proof (mul_le t b2 b1 Ht ltac:(lra)) as Hm2.
    assert (0 <= s * v <= v) by nra.
    destruct (Rle_lt_dec (s * v) b2) as [Hle|Hlt].
    + destruct (Hlow (s * v) ltac:(lra)) as (u' & Hu' & HP). exists u'. split; [lra|exact HP].
    + destruct (Hmid (s * v) ltac:(lra)) as (u' & t' & Ht' & Ew & Eu' & HP). exists u'. split; [|exact HP].
      assert (t' * (b1 - b2) <= t * (b1 - b2)) by lra.
      assert (Hbb : 0 < b1 - b2) by lra.
      assert (t' <= t) by (apply Rmult_le_reg_r with (b1 - b2); assumption). nra.
  - assert (0 <= s * v <= b1) by nra.
    destruct (Rle_lt_dec (s * v) b2) as [Hle|Hlt].
    + destruct (Hlow (s * v) ltac:(lra)) as (u' & Hu' & HP). exists u'. split; [lra|exact HP].
    + destruct (Hmid (s * v) ltac:(lra)) as (u' & t' & Ht' & Ew & Eu' & HP). exists u'. split; [|exact HP].
      pose proof (mul_le t' a3 a2 Ht' ltac:(lra)). lra.
Qed.

Lemma profile_scale a1 a2 a3 b1 b2 r s u v : 0 <= r -> profile a1 a2 a3 b1 b2 u v ->
  profile (r * a1) (r * a2) (r * a3) (s * b1) (s * b2) (r * u) (s * v).
Proof.
  intros Hr [Hu H]. split; [nra|]. destruct H as [(t & Ht & Eu & Ev)|[(t & Ht & Eu & Ev)|[Ev Eu]]].
  - left. exists t. split; [exact Ht|]. subst. split; ring.
  - right; left. exists t. split; [exact Ht|]. subst. split; ring.
  - right; right. subst. split; [ring|]. nra.
Qed.
Lemma profile_unscale a1 a2 a3 b1 b2 r s u v : 0 <= r -> a3 <= a2 <= a1 -> 0 <= a3 ->
  profile (r * a1) (r * a2) (r * a3) (s * b1) (s * b2) u v ->
  exists u0 v0, profile a1 a2 a3 b1 b2 u0 v0 /\ u = r * u0 /\ v = s * v0.
Proof.
  intros Hr Ha H3 [Hu H]. destruct H as [(t & Ht & Eu & Ev)|[(t & Ht & Eu & Ev)|[Ev Eu]]].
  - pose proof (mul_le t a2 a1 Ht ltac:(lra)). exists (a1 - t * (a1 - a2)), (t * b2). split.
    + split; [lra|]. left. exists t. split; [exact Ht|]. split; reflexivity.
    + subst. split; ring.
  - pose proof (mul_le t a3 a2 Ht ltac:(lra)). exists (a2 - t * (a2 - a3)), (b2 + t * (b1 - b2)). split.
    + split; [lra|]. right; left. exists t. split; [exact Ht|]. split; reflexivity.
    + subst. split; ring.
  - destruct (Req_EM_T r 0) as [E|E].
    + exists a3, b1. split; [split; [exact H3|right; right; split; lra]|]. subst r. split; lra.
    + exists (u / r), b1. assert (Hr' : 0 < r) by lra. split.
      * split; [apply Rmult_le_pos; [exact Hu|left; apply Rinv_0_lt_compat; exact Hr']|].
        right; right. split; [reflexivity|]. apply Rmult_le_reg_l with r; [exact Hr'|].
        replace (r * (u / r)) with u by (field; exact E). exact Eu.
      * split; [field; exact E|exact Ev].
Qed.

(** Growing both scale factors only grows the inside. *)
Lemma inside_grows a1 a2 a3 b1 b2 r s r' s' X Y :
  a3 <= a2 <= a1 -> 0 <= a3 -> 0 <= b2 <= b1 -> 0 <= r <= r' -> 0 <= s <= s' ->
  inside (dec_center (/2 - r * a1) (/2 - r * a2) (/2 - r * a3) (/2 - s * b1) (/2 - s * b2)) (X, Y) ->
  inside (dec_center (/2 - r' * a1) (/2 - r' * a2) (/2 - r' * a3) (/2 - s' * b1) (/2 - s' * b2)) (X, Y).
Proof.
  intros Ha H3 Hb Hr Hs (xl & xr & Hl & Hrr & HX). cbn [fst snd] in * .
  assert (Hp : forall x, on_path (dec_center (/2 - r * a1) (/2 - r * a2) (/2 - r * a3) (/2 - s * b1) (/2 - s * b2)) (x, Y) ->
    profile (r * a1) (r * a2) (r * a3) (s * b1) (s * b2) (Rabs (x - /2)) (Rabs (Y - /2))).
  { intros x H. apply on_dec_profile in H; [|split; [split; nra|nra]|split; nra].
    replace (/2 - (/2 - r * a1)) with (r * a1) in H by ring. replace (/2 - (/2 - r * a2)) with (r * a2) in H by ring.
    replace (/2 - (/2 - r * a3)) with (r * a3) in H by ring. replace (/2 - (/2 - s * b1)) with (s * b1) in H by ring.
    replace (/2 - (/2 - s * b2)) with (s * b2) in H by ring. exact H. }
  apply Hp in Hl. apply Hp in Hrr. clear Hp.
  assert (Hu : exists u, Rabs (X - /2) <= u /\ profile (r * a1) (r * a2) (r * a3) (s * b1) (s * b2) u (Rabs (Y - /2))).
  { destruct (Rle_lt_dec (Rabs (xl - /2)) (Rabs (xr - /2))) as [H|H]; [exists (Rabs (xr - /2))|exists (Rabs (xl - /2))];
      (split; [revert H; abs_le|assumption]). }
  destruct Hu as (u & HuX & HP). apply profile_unscale in HP; [|lra|lra|lra].
  destruct HP as (u0 & v0 & HP & Eu & Ev).
  assert (Hq : exists q, 0 <= q <= 1 /\ s = q * s').
  { destruct (Req_EM_T s' 0) as [E|E]; [exists 0; lra|]. exists (s / s'). split; [|field; exact E].
    split; [apply Rmult_le_pos; [lra|left; apply Rinv_0_lt_compat; lra]|].
    apply Rmult_le_reg_r with s'; [lra|]. unfold Rdiv. rewrite Rmult_assoc, Rinv_l by lra. lra. }
  destruct Hq as (q & Hq & Es).
  destruct (profile_down a1 a2 a3 b1 b2 u0 v0 q Ha H3 Hb Hq HP) as (u1 & Hu1 & HP1).
  apply (profile_scale a1 a2 a3 b1 b2 r' s') in HP1; [|lra].
  replace (s' * (q * v0)) with (Rabs (Y - /2)) in HP1 by (rewrite Ev, Es; ring).
  assert (Hu0 : 0 <= u0) by (destruct HP; assumption).
  assert (Hge : Rabs (X - /2) <= r' * u1) by (apply Rle_trans with u; [exact HuX|]; rewrite Eu; nra).
  assert (Hn : 0 <= r' * u1) by (pose proof (Rabs_pos (X - /2)); lra).
  assert (Hon : forall x, Rabs (x - /2) = r' * u1 ->
    on_path (dec_center (/2 - r' * a1) (/2 - r' * a2) (/2 - r' * a3) (/2 - s' * b1) (/2 - s' * b2)) (x, Y)).
  { intros x Hx. apply profile_on_dec.
    replace (/2 - (/2 - r' * a1)) with (r' * a1) by ring. replace (/2 - (/2 - r' * a2)) with (r' * a2) by ring.
    replace (/2 - (/2 - r' * a3)) with (r' * a3) by ring. replace (/2 - (/2 - s' * b1)) with (s' * b1) by ring.
    replace (/2 - (/2 - s' * b2)) with (s' * b2) by ring. rewrite Hx. exact HP1. }
  exists (/2 - r' * u1), (/2 + r' * u1). cbn [fst snd]. split; [apply Hon|split; [apply Hon|]].
  - rewrite abs_neg by lra. lra.
  - rewrite abs_pos by lra. lra.
  - revert Hge. abs_le.
Qed.

(** * adjust *)
(** Scale factor of the distances from the centre along one axis whose first
    parameter is c. *)
Definition scale_of (f c : R) : R := if Rltb 0 f then (/2 - (1 - f) * c) / (/2 - c) else 1 + f.

Lemma scale_mono f g c : 0 <= c < /2 -> -1 <= f -> f <= g -> g <= 1 -> 0 <= scale_of f c <= scale_of g c.
Proof.
  intros Hc Hf Hfg Hg. unfold scale_of.
  assert (Hi : 0 < / (/2 - c)) by (apply Rinv_0_lt_compat; lra).
  assert (Hii : / (/2 - c) * (/2 - c) = 1) by (apply Rinv_l; lra).
  unfold Rdiv. set (k := / (/2 - c)) in * .
  destruct (Rltb 0 f) eqn:E1; [apply Rltb_true in E1|apply Rltb_false in E1];
  (destruct (Rltb 0 g) eqn:E2; [apply Rltb_true in E2|apply Rltb_false in E2]); try lra.
  - split; [apply Rmult_le_pos; nra|]. apply Rmult_le_compat_r; nra.
  - split; [lra|]. apply Rle_trans with 1; [lra|]. rewrite <- Hii. rewrite Rmult_comm. apply Rmult_le_compat_r; nra.
Qed.

Lemma proportional_R c1 c c1o : c1o <> /2 ->
  proportional (A := R) c1 c c1o = Ok (/2 - (/2 - c1) / (/2 - c1o) * (/2 - c)).
Proof.
  intros H. unfold proportional. cbn [nhalf nsub nmul NumR]. rewrite py_div_R by lra. cbn [bind]. f_equal.
  field. lra.
Qed.

Definition limit_of (f y : R) : R := if Rltb 0 f then (1 - f) * y else - f * /2 + (1 + f) * y.
Lemma limit_mono f g y : 0 <= y <= /2 -> -1 <= f -> f <= g -> g <= 1 -> limit_of g y <= limit_of f y.
Proof.
  intros Hy Hf Hfg Hg. unfold limit_of.
  destruct (Rltb 0 f) eqn:E1; [apply Rltb_true in E1|apply Rltb_false in E1];
  (destruct (Rltb 0 g) eqn:E2; [apply Rltb_true in E2|apply Rltb_false in E2]); nra.
Qed.

Lemma hex_adjust_eq (m : hexagon R) f : val (hx1 m) <> /2 -> val (hy1 m) <> /2 ->
  hex_adjust m f = Ok (Hexagon
    (Plain (/2 - scale_of f (val (hx1 m)) * (/2 - val (hx1 m))))
    (Plain (/2 - scale_of f (val (hx1 m)) * (/2 - val (hx2 m))))
    (Plain (/2 - scale_of f (val (hy1 m)) * (/2 - val (hy1 m))))
    (Plain (limit_of f (val (hyl m)))) (Plain (limit_of f (val (hyu m)))) (hzero m) (hconv m)).
Proof.
  intros Hx Hy. unfold hex_adjust, scale_of, limit_of. cbn [nlt nofZ NumR].
  destruct (Rltb 0 f) eqn:E.
  - unfold one. cbn [nofZ nsub nmul NumR]. rewrite proportional_R by exact Hx. cbn [bind].
    f_equal. f_equal; f_equal; field; lra.
  - unfold towards_half, neg, one. cbn [nofZ nsub nmul nadd nhalf NumR]. f_equal. f_equal; f_equal; field.
Qed.
Lemma dec_adjust_eq (m : decagon R) f : val (dx1 m) <> /2 -> val (dy1 m) <> /2 ->
  dec_adjust m f = Ok (Decagon
    (Plain (/2 - scale_of f (val (dx1 m)) * (/2 - val (dx1 m))))
    (Plain (/2 - scale_of f (val (dx1 m)) * (/2 - val (dx2 m))))
    (Plain (/2 - scale_of f (val (dx1 m)) * (/2 - val (dx3 m))))
    (Plain (/2 - scale_of f (val (dy1 m)) * (/2 - val (dy1 m))))
    (Plain (/2 - scale_of f (val (dy1 m)) * (/2 - val (dy2 m))))
    (Plain (limit_of f (val (dyl m)))) (Plain (limit_of f (val (dyu m)))) (dzero m) (dconv m)).
Proof.
  intros Hx Hy. unfold dec_adjust, scale_of, limit_of. cbn [nlt nofZ NumR].
  destruct (Rltb 0 f) eqn:E.
  - unfold one. cbn [nofZ nsub nmul NumR]. rewrite !proportional_R by assumption. cbn [bind].
    f_equal. f_equal; f_equal; field; lra.
  - unfold towards_half, neg, one. cbn [nofZ nsub nmul nadd nhalf NumR]. f_equal. f_equal; f_equal; field.
Qed.

Lemma inside_hex_dec x1 x2 y1 r : inside (hex_center x1 x2 y1) r <-> inside (dec_center x1 x2 x2 y1 y1) r.
Proof.
  unfold inside. split; intros (xl & xr & H1 & H2 & H3); exists xl, xr.
  - rewrite <- !on_hex_dec. auto.
  - rewrite !on_hex_dec. auto.
Qed.

Lemma forbidden_limits c yl yu X Y : forbidden (c :: limit_paths (A := R) yl yu) (X, Y) <->
  inside c (X, Y) \/ 1 + yu <= Y \/ Y <= - yl.
Proof.
  unfold forbidden, center_path, upper_limit, lower_limit, limit_paths, neg, one.
  cbn [hd nth snd fst nofZ nadd nsub NumR]. replace (0 - yl) with (- yl) by ring. reflexivity.
Qed.

Lemma hex_paths_eq (x1 x2 y1 yl yu : R) z c :
  hex_paths (Hexagon (Plain x1) (Plain x2) (Plain y1) (Plain yl) (Plain yu) z c) = hex_center x1 x2 y1 :: limit_paths yl yu.
Proof. reflexivity. Qed.
Lemma dec_paths_eq (x1 x2 x3 y1 y2 yl yu : R) z c :
  dec_paths (Decagon (Plain x1) (Plain x2) (Plain x3) (Plain y1) (Plain y2) (Plain yl) (Plain yu) z c)
  = dec_center x1 x2 x3 y1 y2 :: limit_paths yl yu.
Proof. reflexivity. Qed.

Lemma hex_grows (m mf mg : hexagon R) f g pf pg : shaped_hexagon m -> -1 <= f -> f <= g -> g <= 1 ->
  hex_adjust m f = Ok mf -> hex_adjust m g = Ok mg -> hex_get_paths mf = Ok pf -> hex_get_paths mg = Ok pg ->
  forall r, forbidden pf r -> forbidden pg r.
Proof.
  intros (H1 & H2 & H3 & H4 & H5 & H6) Hf Hfg Hg Ef Eg Pf Pg [X Y].
  rewrite hex_adjust_eq in Ef, Eg by lra. injection Ef as <-. injection Eg as <-.
  unfold hex_get_paths, get_paths in Pf, Pg. cbn [hconv] in Pf, Pg.
  destruct (hconv m); [|discriminate]. rewrite hex_paths_eq in Pf, Pg. injection Pf as <-. injection Pg as <-.
  rewrite !forbidden_limits, !inside_hex_dec.
  pose proof (scale_mono f g (val (hx1 m)) ltac:(lra) Hf Hfg Hg) as Sx.
  pose proof (scale_mono f g (val (hy1 m)) ltac:(lra) Hf Hfg Hg) as Sy.
  pose proof (limit_mono f g (val (hyl m)) ltac:(lra) Hf Hfg Hg). pose proof (limit_mono f g (val (hyu m)) ltac:(lra) Hf Hfg Hg).
  intros [Hi|[Hu|Hl]]; [left|right; left; lra|right; right; lra].
  revert Hi. apply inside_grows; lra.
Qed.
Lemma dec_grows (m mf mg : decagon R) f g pf pg : shaped_decagon m -> -1 <= f -> f <= g -> g <= 1 ->
  dec_adjust m f = Ok mf -> dec_adjust m g = Ok mg -> dec_get_paths mf = Ok pf -> dec_get_paths mg = Ok pg ->
  forall r, forbidden pf r -> forbidden pg r.
Proof.
  intros (H1 & H2 & H3 & H4 & H5 & H6 & H7 & H8) Hf Hfg Hg Ef Eg Pf Pg [X Y].
  rewrite dec_adjust_eq in Ef, Eg by lra. injection Ef as <-. injection Eg as <-.
  unfold dec_get_paths, get_paths in Pf, Pg. cbn [dconv] in Pf, Pg.
  destruct (dconv m); [|discriminate]. rewrite dec_paths_eq in Pf, Pg. injection Pf as <-. injection Pg as <-.
  rewrite !forbidden_limits.
  pose proof (scale_mono f g (val (dx1 m)) ltac:(lra) Hf Hfg Hg) as Sx.
  pose proof (scale_mono f g (val (dy1 m)) ltac:(lra) Hf Hfg Hg) as Sy.
  pose proof (limit_mono f g (val (dyl m)) ltac:(lra) Hf Hfg Hg). pose proof (limit_mono f g (val (dyu m)) ltac:(lra) Hf Hfg Hg).
  intros [Hi|[Hu|Hl]]; [left|right; left; lra|right; right; lra].
  revert Hi. apply inside_grows; lra.
Qed.

(** Adjusting a mask shaped as drawn succeeds. *)
Lemma hex_adjust_total (m : hexagon R) f : val (hx1 m) <> /2 -> exists m', hex_adjust m f = Ok m'.
Proof.
  intros Hx. unfold hex_adjust. cbn [nlt nofZ NumR]. destruct (Rltb 0 f); [|eexists; reflexivity].
  rewrite proportional_R by exact Hx. eexists. reflexivity.
Qed.
