From Coq Require Import List ZArith Bool Lia Reals Lra Psatz.
Import ListNotations.
From Verif Require Import Base Num RBool ImageModel ImageSpec.
Local Open Scope R_scope.

Lemma layer_pixel_over junk b a : over b a (layer_pixel junk b a).
Proof.
  unfold over, layer_pixel, alpha, at_, chan. cbn [nofZ nadd nsub nmul NumR].
  set (aa := nth 3 a 0). set (ab := nth 3 b 0). set (ao := aa + ab * (1 - aa)).
  split; [reflexivity|]. cbn [map app nth]. split; [unfold ao; ring|].
  intros Hne k Hk. unfold blend. cbn [neq nofZ ndiv nmul nadd nsub NumR].
  rewrite (proj2 (Reqb_false ao 0) Hne).
  destruct k as [|[|[|k]]]; try lia; cbn [nth]; field; exact Hne.
Qed.

Lemma layer_pixel_len junk b a : length (layer_pixel (A := R) junk b a) = 4%nat.
Proof. reflexivity. Qed.

Lemma map2i_length {X Y Z} (f : nat -> X -> Y -> Z) : forall a b i, length a = length b ->
  length (map2i f i a b) = length a.
Proof. induction a as [|x a IH]; intros [|y b] i Hl; cbn in * ; try discriminate; [reflexivity|]. rewrite IH; lia. Qed.
Lemma map2i_nth {X Y Z} (f : nat -> X -> Y -> Z) : forall a b i n x y,
  nth_error a n = Some x -> nth_error b n = Some y -> nth_error (map2i f i a b) n = Some (f (i + n)%nat x y).
Proof.
  induction a as [|x a IH]; intros [|y b] i n x' y' Ha Hb; try (destruct n; discriminate).
  destruct n as [|n]; cbn in * .
  - injection Ha as <-. injection Hb as <-. rewrite Nat.add_0_r. reflexivity.
  - rewrite (IH b (S i) n x' y' Ha Hb). f_equal. f_equal. lia.
Qed.
Lemma map2i_in {X Y Z} (f : nat -> X -> Y -> Z) : forall a b i z, In z (map2i f i a b) -> exists j x y, z = f j x y.
Proof.
  induction a as [|x a IH]; intros [|y b] i z Hz; try destruct Hz; [do 3 eexists; symmetry; eassumption|].
  eapply IH; eassumption.
Qed.

Lemma layer_ok junk (below above : image (A := R)) : wf below -> wf above -> shape below = shape above ->
  exists out, layer_rgba junk below above = Ok out /\ wf out /\ shape out = shape below /\
    forall i pb pa, nth_error (pixels below) i = Some pb -> nth_error (pixels above) i = Some pa ->
      exists po, nth_error (pixels out) i = Some po /\ over pb pa po.
Proof.
  intros (h & w & Sb & Lb & Pb) (h' & w' & Sa & La & Pa) E. unfold layer_rgba.
  destruct (list_eq_dec Nat.eq_dec (shape below) (shape above)) as [_|Hn]; [|contradiction].
  assert (Hg : get (shape below) 2 = Ok 4%nat) by (rewrite Sb; reflexivity).
  rewrite Hg. cbn [bind Nat.eqb]. eexists. split; [reflexivity|].
  assert (Hl : length (pixels below) = length (pixels above)).
  { rewrite Lb, La. rewrite Sb, Sa in E. injection E as -> ->. reflexivity. }
  split; [|split].
  - exists h, w. cbn [shape pixels]. split; [exact Sb|]. split; [rewrite map2i_length; assumption|].
    intros p Hp. apply map2i_in in Hp. destruct Hp as (j & x & y & ->). reflexivity.
  - reflexivity.
  - intros i pb pa Hb Ha. cbn [pixels]. eexists. split; [apply map2i_nth; eassumption|]. apply layer_pixel_over.
Qed.

Lemma layer_over_at junk (below above out : image (A := R)) : wf below -> wf above ->
  layer_rgba junk below above = Ok out ->
  forall i pb pa po, nth_error (pixels below) i = Some pb -> nth_error (pixels above) i = Some pa ->
    nth_error (pixels out) i = Some po -> over pb pa po.
Proof.
  intros Wb Wa Hl i pb pa po Eb Ea Eo.
  assert (Hs : shape below = shape above).
  { unfold layer_rgba in Hl. destruct (list_eq_dec Nat.eq_dec (shape below) (shape above)); [assumption|discriminate]. }
  destruct (layer_ok junk below above Wb Wa Hs) as (o & E & _ & _ & Hp). rewrite Hl in E. injection E as <-.
  destruct (Hp i pb pa Eb Ea) as (po' & E & Ho). rewrite Eo in E. injection E as <-. exact Ho.
Qed.

Lemma over_alpha_range b a o : 0 <= alpha b <= 1 -> 0 <= alpha a <= 1 -> over b a o -> 0 <= alpha o <= 1.
Proof. intros Hb Ha (_ & H & _). nra. Qed.

Lemma over_convex b a o k : 0 <= alpha b <= 1 -> 0 <= alpha a <= 1 -> over b a o -> alpha o <> 0 -> (k < 3)%nat ->
  exists t, 0 <= t <= 1 /\ at_ o k = t * at_ a k + (1 - t) * at_ b k.
Proof.
  intros Hb Ha Ho Hne Hk. pose proof (over_alpha_range b a o Hb Ha Ho) as Hr. destruct Ho as (_ & H1 & H2).
  specialize (H2 Hne k Hk). exists (alpha a / alpha o).
  assert (Hp : 0 < alpha o) by lra.
  assert (Hle : alpha a <= alpha o) by nra.
  split.
  - split; [apply Rmult_le_pos; [lra|left; apply Rinv_0_lt_compat; exact Hp]|].
    apply Rmult_le_reg_r with (alpha o); [exact Hp|]. unfold Rdiv. rewrite Rmult_assoc, Rinv_l by lra. lra.
  - apply Rmult_eq_reg_r with (alpha o); [|exact Hne]. rewrite H2.
    replace ((alpha a / alpha o * at_ a k + (1 - alpha a / alpha o) * at_ b k) * alpha o)
      with (alpha a * at_ a k + (alpha o - alpha a) * at_ b k) by (field; exact Hne).
    assert (alpha o - alpha a = (1 - alpha a) * alpha b) by lra. rewrite H. ring.
Qed.

Lemma over_opaque b a o : over b a o -> alpha a = 1 -> looks_like o a.
Proof.
  intros (_ & H1 & H2) Ha. rewrite Ha in H1.
  assert (Ho : alpha o = 1) by lra. split; [lra|]. intros Hne k Hk. specialize (H2 Hne k Hk).
  rewrite Ho, Ha in H2. lra.
Qed.
Lemma over_transparent b a o : over b a o -> alpha a = 0 -> looks_like o b.
Proof.
  intros (_ & H1 & H2) Ha. rewrite Ha in H1. assert (Ho : alpha o = alpha b) by lra. split; [exact Ho|].
  intros Hne k Hk. specialize (H2 Hne k Hk). rewrite Ha in H2.
  apply Rmult_eq_reg_r with (alpha o); [|exact Hne]. rewrite Ho at 2. lra.
Qed.
Lemma over_below_transparent b a o : over b a o -> alpha b = 0 -> looks_like o a.
Proof.
  intros (_ & H1 & H2) Hb. rewrite Hb in H1. assert (Ho : alpha o = alpha a) by lra. split; [exact Ho|].
  intros Hne k Hk. specialize (H2 Hne k Hk). rewrite Hb in H2.
  apply Rmult_eq_reg_r with (alpha o); [|exact Hne]. rewrite Ho at 2. lra.
Qed.
Lemma over_congr b a o b' a' o' : over b a o -> over b' a' o' -> looks_like b b' -> looks_like a a' ->
  looks_like o o'.
Proof.
  intros (_ & H1 & H2) (_ & H1' & H2') [Eb Cb] [Ea Ca].
  assert (Eo : alpha o = alpha o') by (rewrite Ea, Eb in H1; lra). split; [exact Eo|].
  intros Hne k Hk. specialize (H2 Hne k Hk). assert (Hne' : alpha o' <> 0) by congruence. specialize (H2' Hne' k Hk).
  apply Rmult_eq_reg_r with (alpha o); [|exact Hne]. rewrite Eo at 2. rewrite H2, H2', <- Ea, <- Eb.
  destruct (Req_EM_T (alpha a) 0) as [Za|Na]; destruct (Req_EM_T (alpha b) 0) as [Zb|Nb];
    rewrite ?Za, ?Zb, ?(Ca Na k Hk), ?(Cb Nb k Hk); ring.
Qed.

(** premultiplied colour identity, valid also for fully transparent results *)
Lemma over_premul b a o k : 0 <= alpha b <= 1 -> 0 <= alpha a <= 1 -> over b a o -> (k < 3)%nat ->
  at_ o k * alpha o = at_ a k * alpha a + (1 - alpha a) * (at_ b k * alpha b).
Proof.
  intros Hb Ha (Hl & H1 & H2) Hk. destruct (Req_EM_T (alpha o) 0) as [E|E]; [|apply H2; assumption].
  assert (alpha a = 0) by nra. assert (alpha b = 0) by nra. rewrite E, H, H0. ring.
Qed.

Lemma over_assoc a b c ab bc l r : 0 <= alpha a <= 1 -> 0 <= alpha b <= 1 -> 0 <= alpha c <= 1 ->
  over a b ab -> over ab c l -> over b c bc -> over a bc r -> looks_like l r.
Proof.
  intros Ha Hb Hc Hab Hl Hbc Hr.
  pose proof (over_alpha_range _ _ _ Ha Hb Hab) as Rab. pose proof (over_alpha_range _ _ _ Hb Hc Hbc) as Rbc.
  assert (E : alpha l = alpha r).
  { destruct Hab as (_ & E1 & _), Hl as (_ & E2 & _), Hbc as (_ & E3 & _), Hr as (_ & E4 & _).
    rewrite E1 in E2. rewrite E3 in E4. lra. }
  split; [exact E|]. intros Hne k Hk.
  apply Rmult_eq_reg_r with (alpha l); [|exact Hne].
  rewrite (over_premul _ _ _ k Rab Hc Hl Hk). rewrite E. rewrite (over_premul _ _ _ k Ha Rbc Hr Hk).
  rewrite (over_premul _ _ _ k Ha Hb Hab Hk), (over_premul _ _ _ k Hb Hc Hbc Hk).
  destruct Hbc as (_ & E3 & _). rewrite E3. ring.
Qed.

Lemma to_uint8_spec x : 0 <= x <= 1 -> (0 <= to_uint8 x <= 255)%Z /\ IZR (to_uint8 x) <= 255 * x < IZR (to_uint8 x) + 1.
Proof.
  intros Hx. unfold to_uint8. destruct (base_Int_part (255 * x)) as [H1 H2].
  assert (Hr : (0 <= Int_part (255 * x) <= 255)%Z).
  { split.
    - assert (-1 < Int_part (255 * x))%Z by (apply lt_IZR; lra). lia.
    - apply le_IZR. lra. }
  rewrite Z.mod_small by lia. split; [exact Hr|lra].
Qed.
