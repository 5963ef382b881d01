From Coq Require Import List ZArith Bool Lia ZifyBool.
Import ListNotations.
From Verif Require Import Base DrawModel DrawSpec.
Local Open Scope Z_scope.

Definition plots (pts : list pixel) (g : grid) : grid :=
  fold_left (fun g p => plot g (fst p) (snd p)) pts g.

Lemma plot_shape g x y : n_x (plot g x y) = n_x g /\ n_y (plot g x y) = n_y g.
Proof. unfold plot; destruct (_ && _); simpl; auto. Qed.

Lemma plots_shape pts g : n_x (plots pts g) = n_x g /\ n_y (plots pts g) = n_y g.
Proof.
  revert g; induction pts as [|p pts IH]; intros g; [simpl; auto|].
  change (plots (p :: pts) g) with (plots pts (plot g (fst p) (snd p))).
  destruct (IH (plot g (fst p) (snd p))) as [-> ->]. apply plot_shape.
Qed.

Lemma plot_cell g x y a b :
  cell (plot g x y) a b =
  cell g a b + (if ((x =? a) && (y =? b)) && (((0 <=? a) && (a <? n_x g)) && ((0 <=? b) && (b <? n_y g)))
                then 1 else 0).
Proof.
  unfold plot. 
  destruct (((0 <=? x) && (x <? n_x g)) && ((0 <=? y) && (y <? n_y g))) eqn:E; simpl.
  - destruct ((a =? x) && (b =? y)) eqn:E2.
    + assert (x = a) by lia. assert (y = b) by lia. subst. rewrite !Z.eqb_refl, E. reflexivity.
    + replace ((x =? a) && (y =? b)) with false by lia. simpl; lia.
  - destruct ((x =? a) && (y =? b)) eqn:E2; [|simpl; lia].
    assert (x = a) by lia. assert (y = b) by lia. subst. rewrite E. simpl; lia.
Qed.

Lemma plots_cell_in pts g a b : inside (n_x g) (n_y g) a b ->
  cell (plots pts g) a b = cell g a b + visits a b pts.
Proof.
  revert g; induction pts as [|p pts IH]; intros g Hin.
  - unfold visits; simpl; lia.
  - change (plots (p :: pts) g) with (plots pts (plot g (fst p) (snd p))).
    rewrite IH by (destruct (plot_shape g (fst p) (snd p)) as [-> ->]; exact Hin).
    rewrite plot_cell. unfold visits, inside in *. cbn [filter].
    destruct ((fst p =? a) && (snd p =? b)) eqn:E.
    + replace (((0 <=? a) && (a <? n_x g)) && ((0 <=? b) && (b <? n_y g))) with true by lia.
      simpl length. cbn [andb]. lia.
    + cbn [andb]. lia.
Qed.

Lemma plots_cell_out pts g a b : ~ inside (n_x g) (n_y g) a b ->
  cell (plots pts g) a b = cell g a b.
Proof.
  revert g; induction pts as [|p pts IH]; intros g Hin; [reflexivity|].
  change (plots (p :: pts) g) with (plots pts (plot g (fst p) (snd p))).
  rewrite IH by (destruct (plot_shape g (fst p) (snd p)) as [-> ->]; exact Hin).
  rewrite plot_cell. unfold inside in *.
  replace (((0 <=? a) && (a <? n_x g)) && ((0 <=? b) && (b <? n_y g))) with false by lia.
  rewrite andb_false_r. lia.
Qed.

Lemma plots_app l1 l2 g : plots (l1 ++ l2) g = plots l2 (plots l1 g).
Proof. apply fold_left_app. Qed.

Lemma mid0 d m : 0 < d -> - d <= 2 * (m * d) <= d -> m = 0.
Proof. intros Hd H. nia. Qed.

(** Position of the k-th pixel when x is the major axis. *)
Definition posx (xs ys sx sy dx dy : Z) (k : Z) (p : pixel) : Prop :=
  fst p = xs + sx * k /\
  exists j, snd p = ys + sy * j /\ - dx <= 2 * (j * dx - k * dy) < dx.

Definition posy (xs ys sx sy dx dy : Z) (k : Z) (p : pixel) : Prop :=
  snd p = ys + sy * k /\
  exists i, fst p = xs + sx * i /\ - dy < 2 * (k * dx - i * dy) <= dy.

Lemma loop_x : forall xs ys sx sy dx dy x2 y2,
  (sx = 1 \/ sx = -1) -> (sy = 1 \/ sy = -1) -> 0 < dx -> 0 <= dy <= dx ->
  x2 = xs + sx * dx -> y2 = ys + sy * dy ->
  forall n i j err x1 y1,
  x1 = xs + sx * i -> y1 = ys + sy * j ->
  Z.of_nat n = dx - i -> 0 <= i ->
  - dx <= 2 * (j * dx - i * dy) < dx ->
  err = (j + 1) * dx - (i + 1) * dy ->
  exists pts, length pts = n /\
    (forall k p, nth_error pts k = Some p -> posx xs ys sx sy dx dy (i + Z.of_nat k) p) /\
    (forall fuel g, (n < fuel)%nat ->
       segment_loop fuel x2 y2 dx dy sx sy x1 y1 err g = Ok (plots pts g)) /\
    (forall fuel g, (fuel <= n)%nat ->
       segment_loop fuel x2 y2 dx dy sx sy x1 y1 err g = Err OutOfFuel).
Proof.
  intros xs ys sx sy dx dy x2 y2 Hsx Hsy Hdx Hdy Hx2 Hy2.
  induction n as [|n IH]; intros i j err x1 y1 Hx1 Hy1 Hn Hi HE Herr.
  - assert (i = dx) by lia. assert (j = dy) by nia.
    exists []. split; [reflexivity|]. split; [intros [|k] p; discriminate|]. split.
    + intros [|fuel] g Hf; [lia|]. cbn [segment_loop].
      replace (x1 =? x2) with true by (subst; lia).
      replace (y1 =? y2) with true by (subst; lia). reflexivity.
    + intros [|fuel] g Hf; [reflexivity|lia].
  - assert (Hne : x1 <> x2) by (subst; nia).
    assert (Hx : - dy < 2 * err).
    { subst err. destruct (Z.eq_dec dx dy) as [He|He]; [|nia].
      subst dy. assert (j = i) by nia. subst. nia. }
    destruct (Z_lt_ge_dec (2 * err) dx) as [Hy|Hy].
    + destruct (IH (i + 1) (j + 1) (err - dy + dx) (x1 + sx) (y1 + sy))
        as (pts & Hlen & Hpos & Hok & Hoof); try nia.
      exists ((x1, y1) :: pts). split; [simpl; lia|]. split; [|split].
      * intros [|k] p Hk; simpl in Hk.
        -- injection Hk as <-. change (Z.of_nat 0) with 0. rewrite Z.add_0_r. split; cbn [fst snd]; [assumption|]. exists j. split; assumption.
        -- replace (i + Z.of_nat (S k)) with (i + 1 + Z.of_nat k) by lia. auto.
      * intros [|fuel] g Hf; [lia|]. cbn [segment_loop].
        replace (x1 =? x2) with false by lia. cbn [andb].
        replace (- dy <? 2 * err) with true by lia.
        replace (2 * err <? dx) with true by lia.
        rewrite Hok by lia. reflexivity.
      * intros [|fuel] g Hf; [reflexivity|]. cbn [segment_loop].
        replace (x1 =? x2) with false by lia. cbn [andb].
        replace (- dy <? 2 * err) with true by lia.
        replace (2 * err <? dx) with true by lia.
        apply Hoof; lia.
    + destruct (IH (i + 1) j (err - dy) (x1 + sx) y1)
        as (pts & Hlen & Hpos & Hok & Hoof); try nia.
      exists ((x1, y1) :: pts). split; [simpl; lia|]. split; [|split].
      * intros [|k] p Hk; simpl in Hk.
        -- injection Hk as <-. change (Z.of_nat 0) with 0. rewrite Z.add_0_r. split; cbn [fst snd]; [assumption|]. exists j. split; assumption.
        -- replace (i + Z.of_nat (S k)) with (i + 1 + Z.of_nat k) by lia. auto.
      * intros [|fuel] g Hf; [lia|]. cbn [segment_loop].
        replace (x1 =? x2) with false by lia. cbn [andb].
        replace (- dy <? 2 * err) with true by lia.
        replace (2 * err <? dx) with false by lia.
        rewrite Hok by lia. reflexivity.
      * intros [|fuel] g Hf; [reflexivity|]. cbn [segment_loop].
        replace (x1 =? x2) with false by lia. cbn [andb].
        replace (- dy <? 2 * err) with true by lia.
        replace (2 * err <? dx) with false by lia.
        apply Hoof; lia.
Qed.

Lemma loop_y : forall xs ys sx sy dx dy x2 y2,
  (sx = 1 \/ sx = -1) -> (sy = 1 \/ sy = -1) -> 0 <= dx < dy ->
  x2 = xs + sx * dx -> y2 = ys + sy * dy ->
  forall n i j err x1 y1,
  x1 = xs + sx * i -> y1 = ys + sy * j ->
  Z.of_nat n = dy - j -> 0 <= j ->
  - dy < 2 * (j * dx - i * dy) <= dy ->
  err = (j + 1) * dx - (i + 1) * dy ->
  exists pts, length pts = n /\
    (forall k p, nth_error pts k = Some p -> posy xs ys sx sy dx dy (j + Z.of_nat k) p) /\
    (forall fuel g, (n < fuel)%nat ->
       segment_loop fuel x2 y2 dx dy sx sy x1 y1 err g = Ok (plots pts g)) /\
    (forall fuel g, (fuel <= n)%nat ->
       segment_loop fuel x2 y2 dx dy sx sy x1 y1 err g = Err OutOfFuel).
Proof.
  intros xs ys sx sy dx dy x2 y2 Hsx Hsy Hdx Hx2 Hy2.
  induction n as [|n IH]; intros i j err x1 y1 Hx1 Hy1 Hn Hj HE Herr.
  - assert (j = dy) by lia. assert (i = dx) by nia.
    exists []. split; [reflexivity|]. split; [intros [|k] p; discriminate|]. split.
    + intros [|fuel] g Hf; [lia|]. cbn [segment_loop].
      replace (x1 =? x2) with true by (subst; lia).
      replace (y1 =? y2) with true by (subst; lia). reflexivity.
    + intros [|fuel] g Hf; [reflexivity|lia].
  - assert (Hne : y1 <> y2) by (subst; nia).
    assert (Hy : 2 * err < dx) by (subst err; nia).
    destruct (Z_lt_ge_dec (- dy) (2 * err)) as [Hx|Hx].
    + destruct (IH (i + 1) (j + 1) (err - dy + dx) (x1 + sx) (y1 + sy))
        as (pts & Hlen & Hpos & Hok & Hoof); try nia.
      exists ((x1, y1) :: pts). split; [simpl; lia|]. split; [|split].
      * intros [|k] p Hk; simpl in Hk.
        -- injection Hk as <-. change (Z.of_nat 0) with 0. rewrite Z.add_0_r. split; cbn [fst snd]; [assumption|]. exists i. split; assumption.
        -- replace (j + Z.of_nat (S k)) with (j + 1 + Z.of_nat k) by lia. auto.
      * intros [|fuel] g Hf; [lia|]. cbn [segment_loop].
        replace (y1 =? y2) with false by lia. rewrite andb_false_r.
        replace (- dy <? 2 * err) with true by lia.
        replace (2 * err <? dx) with true by lia.
        rewrite Hok by lia. reflexivity.
      * intros [|fuel] g Hf; [reflexivity|]. cbn [segment_loop].
        replace (y1 =? y2) with false by lia. rewrite andb_false_r.
        replace (- dy <? 2 * err) with true by lia.
        replace (2 * err <? dx) with true by lia.
        apply Hoof; lia.
    + destruct (IH i (j + 1) (err + dx) x1 (y1 + sy))
        as (pts & Hlen & Hpos & Hok & Hoof); try nia.
      exists ((x1, y1) :: pts). split; [simpl; lia|]. split; [|split].
      * intros [|k] p Hk; simpl in Hk.
        -- injection Hk as <-. change (Z.of_nat 0) with 0. rewrite Z.add_0_r. split; cbn [fst snd]; [assumption|]. exists i. split; assumption.
        -- replace (j + Z.of_nat (S k)) with (j + 1 + Z.of_nat k) by lia. auto.
      * intros [|fuel] g Hf; [lia|]. cbn [segment_loop].
        replace (y1 =? y2) with false by lia. rewrite andb_false_r.
        replace (- dy <? 2 * err) with false by lia.
        replace (2 * err <? dx) with true by lia.
        rewrite Hok by lia. reflexivity.
      * intros [|fuel] g Hf; [reflexivity|]. cbn [segment_loop].
        replace (y1 =? y2) with false by lia. rewrite andb_false_r.
        replace (- dy <? 2 * err) with false by lia.
        replace (2 * err <? dx) with true by lia.
        apply Hoof; lia.
Qed.

(** From positions to [raster]. *)
Lemma connected_by_index (l : list pixel) :
  (forall k p q, nth_error l k = Some p -> nth_error l (S k) = Some q -> neighbours p q) ->
  connected l.
Proof.
  induction l as [|p l IH]; intros H; [exact I|].
  destruct l as [|q l]; [exact I|]. split.
  - apply (H O); reflexivity.
  - apply IH. intros k a b Ha Hb. apply (H (S k)); assumption.
Qed.

Lemma nth_error_snoc {X} (l : list X) b k p :
  nth_error (l ++ [b]) k = Some p ->
  nth_error l k = Some p \/ (k = length l /\ p = b).
Proof.
  intros Hk. destruct (Nat.lt_ge_cases k (length l)) as [H|H].
  - left. rewrite nth_error_app1 in Hk by lia. exact Hk.
  - right. rewrite nth_error_app2 in Hk by lia.
    destruct (k - length l)%nat as [|m] eqn:E; simpl in Hk.
    + injection Hk as <-. split; [lia|reflexivity].
    + destruct m; discriminate.
Qed.

Lemma Forall_by_index {X} (P : X -> Prop) l :
  (forall k p, nth_error l k = Some p -> P p) -> Forall P l.
Proof.
  intros H. apply Forall_forall. intros x Hx. apply In_nth_error in Hx.
  destruct Hx as [k Hk]. eauto.
Qed.

Lemma raster_x xs ys sx sy dx dy x2 y2 pts :
  (sx = 1 \/ sx = -1) -> (sy = 1 \/ sy = -1) -> 0 < dx -> 0 <= dy <= dx ->
  x2 = xs + sx * dx -> y2 = ys + sy * dy ->
  Z.of_nat (length pts) = dx ->
  (forall k p, nth_error pts k = Some p -> posx xs ys sx sy dx dy (Z.of_nat k) p) ->
  raster (xs, ys) (x2, y2) pts.
Proof.
  intros Hsx Hsy Hdx Hdy Hx2 Hy2 Hlen Hpos.
  assert (Hadx : Z.abs (x2 - xs) = dx) by nia.
  assert (Hady : Z.abs (y2 - ys) = dy) by nia.
  assert (Hall : forall k p, nth_error (pts ++ [(x2, y2)]) k = Some p ->
             posx xs ys sx sy dx dy (Z.of_nat k) p /\ Z.of_nat k <= dx).
  { intros k p Hk. destruct (nth_error_snoc _ _ _ _ Hk) as [H|[H ->]].
    - split; [auto|]. assert (k < length pts)%nat by (apply nth_error_Some; congruence). lia.
    - subst k. rewrite Hlen. split; [|lia]. split; cbn [fst snd]; [lia|]. exists dy. split; nia. }
  unfold raster, steps; cbn [fst snd]. repeat apply conj.
  - lia.
  - intros _. destruct pts as [|p pts]; [simpl in Hlen; lia|]. simpl.
    destruct (Hpos O p eq_refl) as [Hf (j & Hj & HE)]. destruct p as [px py]; cbn [fst snd] in *; change (Z.of_nat 0) with 0 in *.
    assert (j = 0) by nia. subst. repeat f_equal; nia.
  - intros Hin. apply In_nth_error in Hin. destruct Hin as [k Hk].
    assert (k < length pts)%nat by (apply nth_error_Some; congruence).
    destruct (Hpos k _ Hk) as [Hf _]. cbn [fst snd] in Hf. nia.
  - apply NoDup_nth_error. intros a b Ha Hab.
    destruct (nth_error pts a) as [p|] eqn:E; [|apply nth_error_None in E; lia].
    symmetry in Hab. destruct (Hpos a p E) as [Hf1 _]. destruct (Hpos b p Hab) as [Hf2 _]. nia.
  - apply connected_by_index. intros k p q Hp Hq.
    destruct (Hall _ _ Hp) as [[Hf1 (j1 & Hj1 & HE1)] _].
    destruct (Hall _ _ Hq) as [[Hf2 (j2 & Hj2 & HE2)] _].
    rewrite Nat2Z.inj_succ in *. unfold Z.succ in *.
    assert (0 <= j2 - j1 <= 1) by nia.
    split; [intros ->; nia|]. split; nia.
  - apply Forall_by_index. intros k p Hk. unfold in_box; cbn [fst snd].
    assert (k < length pts)%nat by (apply nth_error_Some; congruence).
    destruct (Hpos k p Hk) as [Hf (j & Hj & HE)].
    assert (0 <= j <= dy) by nia. destruct Hsx, Hsy; subst sx sy; lia.
  - apply Forall_by_index. intros k p Hk. unfold near_line, steps; cbn [fst snd].
    destruct (Hpos k p Hk) as [Hf (j & Hj & HE)]. rewrite Hf, Hj, Hadx, Hady.
    replace (Z.max dx dy) with dx by lia.
    replace (ys + sy * j - ys) with (sy * j) by lia.
    replace (xs + sx * Z.of_nat k - xs) with (sx * Z.of_nat k) by lia.
    replace (x2 - xs) with (sx * dx) by lia. replace (y2 - ys) with (sy * dy) by lia.
    destruct Hsx, Hsy; subst sx sy; lia.
Qed.

Lemma raster_y xs ys sx sy dx dy x2 y2 pts :
  (sx = 1 \/ sx = -1) -> (sy = 1 \/ sy = -1) -> 0 <= dx < dy ->
  x2 = xs + sx * dx -> y2 = ys + sy * dy ->
  Z.of_nat (length pts) = dy ->
  (forall k p, nth_error pts k = Some p -> posy xs ys sx sy dx dy (Z.of_nat k) p) ->
  raster (xs, ys) (x2, y2) pts.
Proof.
  intros Hsx Hsy Hdx Hx2 Hy2 Hlen Hpos.
  assert (Hadx : Z.abs (x2 - xs) = dx) by nia.
  assert (Hady : Z.abs (y2 - ys) = dy) by nia.
  assert (Hall : forall k p, nth_error (pts ++ [(x2, y2)]) k = Some p ->
             posy xs ys sx sy dx dy (Z.of_nat k) p /\ Z.of_nat k <= dy).
  { intros k p Hk. destruct (nth_error_snoc _ _ _ _ Hk) as [H|[H ->]].
    - split; [auto|]. assert (k < length pts)%nat by (apply nth_error_Some; congruence). lia.
    - subst k. rewrite Hlen. split; [|lia]. split; cbn [fst snd]; [lia|]. exists dx. split; nia. }
  unfold raster, steps; cbn [fst snd]. repeat apply conj.
  - lia.
  - intros _. destruct pts as [|p pts]; [simpl in Hlen; lia|]. simpl.
    destruct (Hpos O p eq_refl) as [Hf (j & Hj & HE)]. destruct p as [px py]; cbn [fst snd] in *; change (Z.of_nat 0) with 0 in *.
    assert (j = 0) by nia. subst. repeat f_equal; nia.
  - intros Hin. apply In_nth_error in Hin. destruct Hin as [k Hk].
    assert (k < length pts)%nat by (apply nth_error_Some; congruence).
    destruct (Hpos k _ Hk) as [Hf _]. cbn [fst snd] in Hf. nia.
  - apply NoDup_nth_error. intros a b Ha Hab.
    destruct (nth_error pts a) as [p|] eqn:E; [|apply nth_error_None in E; lia].
    symmetry in Hab. destruct (Hpos a p E) as [Hf1 _]. destruct (Hpos b p Hab) as [Hf2 _]. nia.
  - apply connected_by_index. intros k p q Hp Hq.
    destruct (Hall _ _ Hp) as [[Hf1 (j1 & Hj1 & HE1)] _].
    destruct (Hall _ _ Hq) as [[Hf2 (j2 & Hj2 & HE2)] _].
    rewrite Nat2Z.inj_succ in *. unfold Z.succ in *.
    assert (0 <= j2 - j1 <= 1) by nia.
    split; [intros ->; nia|]. split; nia.
  - apply Forall_by_index. intros k p Hk. unfold in_box; cbn [fst snd].
    assert (k < length pts)%nat by (apply nth_error_Some; congruence).
    destruct (Hpos k p Hk) as [Hf (j & Hj & HE)].
    assert (0 <= j <= dx) by nia. destruct Hsx, Hsy; subst sx sy; lia.
  - apply Forall_by_index. intros k p Hk. unfold near_line, steps; cbn [fst snd].
    destruct (Hpos k p Hk) as [Hf (j & Hj & HE)]. rewrite Hf, Hj, Hadx, Hady.
    replace (Z.max dx dy) with dy by lia.
    replace (xs + sx * j - xs) with (sx * j) by lia.
    replace (ys + sy * Z.of_nat k - ys) with (sy * Z.of_nat k) by lia.
    replace (x2 - xs) with (sx * dx) by lia. replace (y2 - ys) with (sy * dy) by lia.
    destruct Hsx, Hsy; subst sx sy; lia.
Qed.

Lemma draw_segment_spec x1 y1 x2 y2 :
  exists seg, raster (x1, y1) (x2, y2) seg /\
    (forall fuel g, steps (x1, y1) (x2, y2) < Z.of_nat fuel ->
       draw_segment fuel x1 y1 x2 y2 g = Ok (plots seg g)) /\
    (forall fuel g, Z.of_nat fuel <= steps (x1, y1) (x2, y2) ->
       draw_segment fuel x1 y1 x2 y2 g = Err OutOfFuel).
Proof.
  set (dx := Z.abs (x2 - x1)). set (dy := Z.abs (y2 - y1)).
  set (sx := if x1 <? x2 then 1 else -1). set (sy := if y1 <? y2 then 1 else -1).
  assert (Hsx : sx = 1 \/ sx = -1) by (unfold sx; destruct (x1 <? x2); auto).
  assert (Hsy : sy = 1 \/ sy = -1) by (unfold sy; destruct (y1 <? y2); auto).
  assert (Hx2 : x2 = x1 + sx * dx) by (unfold sx, dx; destruct (x1 <? x2) eqn:E; lia).
  assert (Hy2 : y2 = y1 + sy * dy) by (unfold sy, dy; destruct (y1 <? y2) eqn:E; lia).
  assert (Habs : Z.abs (x2 - x1) = dx /\ Z.abs (y2 - y1) = dy) by (split; reflexivity).
  unfold draw_segment. fold dx dy sx sy. clearbody dx dy sx sy. destruct Habs as [Habx Haby].
  destruct (Z_le_gt_dec dy dx) as [Hle|Hgt].
  - destruct (Z.eq_dec dx 0) as [H0|H0].
    + assert (dy = 0) by lia. exists []. 
      assert (Hxe : x2 = x1) by lia. assert (Hye : y2 = y1) by lia. clear Hx2 Hy2. subst x2 y2.
      split; [|split].
      * unfold raster, steps; cbn [fst snd]. repeat apply conj; try constructor; try tauto.
        -- simpl length. lia.
      * intros [|fuel] g Hf; [unfold steps in Hf; cbn [fst snd] in Hf; lia|].
        cbn [segment_loop]. rewrite !Z.eqb_refl. reflexivity.
      * intros [|fuel] g Hf; [reflexivity|unfold steps in Hf; cbn [fst snd] in Hf; lia].
    + destruct (loop_x x1 y1 sx sy dx dy x2 y2 Hsx Hsy ltac:(lia) ltac:(lia) Hx2 Hy2
                  (Z.to_nat dx) 0 0 (dx - dy) x1 y1)
        as (pts & Hlen & Hpos & Hok & Hoof); try lia.
      exists pts. split; [|split].
      * apply raster_x with (sx := sx) (sy := sy) (dx := dx) (dy := dy); try lia.
        intros k p Hk. apply (Hpos k p Hk).
      * intros fuel g Hf. unfold steps in Hf; cbn [fst snd] in Hf. apply Hok. lia.
      * intros fuel g Hf. unfold steps in Hf; cbn [fst snd] in Hf. apply Hoof. lia.
  - destruct (loop_y x1 y1 sx sy dx dy x2 y2 Hsx Hsy ltac:(lia) Hx2 Hy2
                  (Z.to_nat dy) 0 0 (dx - dy) x1 y1)
        as (pts & Hlen & Hpos & Hok & Hoof); try lia.
      exists pts. split; [|split].
      * apply raster_y with (sx := sx) (sy := sy) (dx := dx) (dy := dy); try lia.
        intros k p Hk. apply (Hpos k p Hk).
      * intros fuel g Hf. unfold steps in Hf; cbn [fst snd] in Hf. apply Hok. lia.
      * intros fuel g Hf. unfold steps in Hf; cbn [fst snd] in Hf. apply Hoof. lia.
Qed.

(** Consecutive vertices all closer than the fuel. *)
Fixpoint enough (fuel : nat) (p : pixel) (ps : list pixel) : Prop :=
  match ps with
  | [] => True
  | q :: ps' => steps p q < Z.of_nat fuel /\ enough fuel q ps'
  end.

Lemma draw_loop_spec ps : forall p, exists pts lastp,
  raster_polyline (p :: ps) (pts ++ [lastp]) /\
  forall fuel g, enough fuel p ps -> draw_loop fuel p ps g = Ok (plots pts g, lastp).
Proof.
  induction ps as [|q ps IH]; intros p.
  - exists [], p. split; [constructor|]. reflexivity.
  - destruct (IH q) as (pts & lastp & Hr & Hd). destruct p as [x1 y1], q as [x2 y2].
    destruct (draw_segment_spec x1 y1 x2 y2) as (seg & Hseg & Hok & _).
    exists (seg ++ pts), lastp. split.
    + rewrite <- app_assoc. constructor; assumption.
    + intros fuel g [Hf He]. cbn [draw_loop fst snd]. rewrite Hok by exact Hf.
      rewrite Hd by exact He. rewrite plots_app. reflexivity.
Qed.

Theorem draw_spec p q ps : exists pts,
  raster_polyline (p :: q :: ps) pts /\
  forall fuel g, enough fuel p (q :: ps) -> draw fuel (p :: q :: ps) g = Ok (plots pts g).
Proof.
  destruct (draw_loop_spec (q :: ps) p) as (pts & lastp & Hr & Hd).
  exists (pts ++ [lastp]). split; [exact Hr|].
  intros fuel g He. unfold draw. cbn [tl]. rewrite (Hd fuel g He).
  destruct lastp as [lx ly]. rewrite plots_app. reflexivity.
Qed.

Lemma draw_points_spec ps g : draw_points ps g = plots ps g.
Proof. reflexivity. Qed.

(** int32 *)
Lemma wrap32_id z : -2147483648 <= z < 2147483648 -> wrap32 z = z.
Proof. intros H. unfold wrap32. rewrite Z.mod_small by lia. lia. Qed.

Definition B28 := 268435456.


Lemma major_end dx dy i j : 0 < dx -> 0 <= dy <= dx -> 
  - dx <= 2 * (j * dx - i * dy) < dx -> i = dx -> j = dy.
Proof. intros H1 H2 H3 ->. nia. Qed.
Lemma major_end' dx dy i j : 0 <= dx < dy ->
  - dy < 2 * (j * dx - i * dy) <= dy -> j = dy -> i = dx.
Proof. intros H1 H3 ->. nia. Qed.
Lemma minor_room dx dy i j : 0 <= dy -> i < dx -> 0 < dx ->
  2 * (j * dx - i * dy) < 2 * dy - dx -> j < dy.
Proof. intros H1 H2 H3 H4. nia. Qed.
Lemma minor_room' dx dy i j : 0 <= dx -> j < dy -> 0 < dy ->
  dy - 2 * dx < 2 * (j * dx - i * dy) -> i < dx.
Proof. intros H1 H2 H3 H4. nia. Qed.
Lemma diag d i j : 0 < d -> - d <= 2 * (j * d - i * d) < d -> j = i.
Proof. intros H1 H2. nia. Qed.

(** The loop invariant bounds: the wrapped and the unbounded loop coincide. *)
Lemma loop32 : forall dx dy x2 y2 sx sy xs ys, 0 <= dx <= 2 * B28 -> 0 <= dy <= 2 * B28 ->
  (sx = 1 \/ sx = -1) -> (sy = 1 \/ sy = -1) ->
  - B28 <= xs <= B28 -> - B28 <= ys <= B28 ->
  x2 = xs + sx * dx -> y2 = ys + sy * dy ->
  forall fuel i j err x1 y1 g,
  x1 = xs + sx * i -> y1 = ys + sy * j -> 
  0 <= i -> 0 <= j -> i <= dx -> j <= dy ->
  (dy <= dx -> - dx <= 2 * (j * dx - i * dy) < dx \/ dx = 0) ->
  (dx < dy -> - dy < 2 * (j * dx - i * dy) <= dy) ->
  err = (j + 1) * dx - (i + 1) * dy ->
  segment_loop32 fuel x2 y2 dx dy sx sy x1 y1 err g =
  segment_loop fuel x2 y2 dx dy sx sy x1 y1 err g.
Proof.
  intros dx dy x2 y2 sx sy xs ys Hdx Hdy Hsx Hsy Hxs Hys Hx2 Hy2. unfold B28 in *.
  induction fuel as [|fuel IH]; intros i j err x1 y1 g Hx1 Hy1
    Hi Hj Hidx Hjdy HE1 HE2 Herr; [reflexivity|].
  cbn [segment_loop32 segment_loop].
  destruct ((x1 =? x2) && (y1 =? y2)) eqn:Eend; [reflexivity|].
  assert (Hnz : ~ (i = dx /\ j = dy)) by (intros [Hi' Hj']; rewrite Hi' in Hx1; rewrite Hj' in Hy1; lia).
  set (E := j * dx - i * dy) in *.
  assert (Heq : err = E + dx - dy) by (unfold E; lia).
  assert (P1 : (i + 1) * dy = i * dy + dy) by ring.
  assert (P2 : (j + 1) * dx = j * dx + dx) by ring.
  assert (P3 : (i + 1 + 1) * dy = i * dy + 2 * dy) by ring.
  assert (P4 : (j + 1 + 1) * dx = j * dx + 2 * dx) by ring.
  assert (P5 : sx * (i + 1) = sx * i + sx) by ring.
  assert (P6 : sy * (j + 1) = sy * j + sy) by ring.
  assert (Qx : i < dx -> -2147483648 <= x1 + sx < 2147483648) by (intros; destruct Hsx; subst; lia).
  assert (Qy : j < dy -> -2147483648 <= y1 + sy < 2147483648) by (intros; destruct Hsy; subst; lia).
  destruct (Z_le_gt_dec dy dx) as [Hc|Hc].
  - (* x major *)
    destruct (HE1 ltac:(lia)) as [HE|Ha]; [|exfalso; apply Hnz; lia].
    assert (Hdx0 : 0 < dx) by lia.
    assert (Hil : i < dx).
    { destruct (Z.eq_dec i dx) as [e|e]; [|lia]. exfalso; apply Hnz; split; [exact e|].
      apply (major_end dx dy i j); lia. }
    assert (Hx : - dy < 2 * err).
    { destruct (Z.eq_dec dx dy) as [He|He]; [|lia].
      assert (Hji : j = i) by (apply (diag dx); [lia|]; unfold E in HE; rewrite <- He in HE; exact HE).
      unfold E in Heq. rewrite Hji, <- He in Heq. lia. }
    rewrite (wrap32_id (2 * err)) by lia.
    rewrite (wrap32_id (- dy)) by lia.
    replace (- dy <? 2 * err) with true by lia.
    rewrite (wrap32_id (x1 + sx)) by (apply Qx; lia). rewrite (wrap32_id (err - dy)) by lia.
    destruct (2 * err <? dx) eqn:Ey.
    + assert (j < dy) by (apply (minor_room dx dy i j); [lia|lia|lia|fold E; lia]).
      rewrite (wrap32_id (y1 + sy)) by (apply Qy; lia).
      rewrite (wrap32_id (err - dy + dx)) by lia.
      apply (IH (i + 1) (j + 1)); try lia.
    + apply (IH (i + 1) j); try lia.
  - specialize (HE2 ltac:(lia)).
    assert (Hjl : j < dy).
    { destruct (Z.eq_dec j dy) as [e|e]; [|lia]. exfalso; apply Hnz; split; [|exact e].
      apply (major_end' dx dy i j); lia. }
    rewrite (wrap32_id (2 * err)) by lia.
    rewrite (wrap32_id (- dy)) by lia.
    replace (2 * err <? dx) with true by lia.
    rewrite (wrap32_id (y1 + sy)) by (apply Qy; lia).
    destruct (- dy <? 2 * err) eqn:Ex.
    + assert (i < dx) by (apply (minor_room' dx dy i j); [lia|lia|lia|fold E; lia]).
      rewrite (wrap32_id (x1 + sx)) by (apply Qx; lia).
      rewrite (wrap32_id (err - dy)) by lia.
      rewrite (wrap32_id (err - dy + dx)) by lia.
      apply (IH (i + 1) (j + 1)); try lia.
    + rewrite (wrap32_id (err + dx)) by lia.
      apply (IH i (j + 1)); try lia.
Qed.

Lemma draw_segment32_same fuel x1 y1 x2 y2 g :
  - B28 <= x1 <= B28 -> - B28 <= y1 <= B28 -> - B28 <= x2 <= B28 -> - B28 <= y2 <= B28 ->
  draw_segment32 fuel x1 y1 x2 y2 g = draw_segment fuel x1 y1 x2 y2 g.
Proof.
  unfold B28. intros H1 H2 H3 H4. unfold draw_segment32, draw_segment.
  replace (if x1 <? x2 then wrap32 (x2 - x1) else wrap32 (x1 - x2)) with (Z.abs (x2 - x1))
    by (destruct (x1 <? x2) eqn:E; rewrite wrap32_id by lia; lia).
  replace (if y1 <? y2 then wrap32 (y2 - y1) else wrap32 (y1 - y2)) with (Z.abs (y2 - y1))
    by (destruct (y1 <? y2) eqn:E; rewrite wrap32_id by lia; lia).
  rewrite (wrap32_id (_ - _)) by lia.
  apply loop32 with (i := 0) (j := 0) (xs := x1) (ys := y1);
    unfold B28; try (destruct (x1 <? x2) eqn:?); try (destruct (y1 <? y2) eqn:?); try lia.
Qed.

Lemma enough_exists ps : forall p, exists N, forall fuel, (N <= fuel)%nat -> enough fuel p ps.
Proof.
  induction ps as [|q ps IH]; intros p.
  - exists O. intros; exact I.
  - destruct (IH q) as [N HN]. exists (N + S (Z.to_nat (steps p q)))%nat.
    intros fuel Hf. split; [lia|apply HN; lia].
Qed.

Lemma plots_adds pts g : n_x (plots pts g) = n_x g /\ n_y (plots pts g) = n_y g /\
  adds_visits (n_x g) (n_y g) (cell g) (cell (plots pts g)) pts.
Proof.
  destruct (plots_shape pts g) as [H1 H2]. split; [exact H1|]. split; [exact H2|].
  intros a b. split; [apply plots_cell_in | apply plots_cell_out].
Qed.

Lemma draw_polyline_full : forall (p q : pixel) (ps : list pixel),
  exists pts, raster_polyline (p :: q :: ps) pts /\
  exists enough_fuel, forall fuel g, (enough_fuel <= fuel)%nat ->
    exists g', draw fuel (p :: q :: ps) g = Ok g' /\
      n_x g' = n_x g /\ n_y g' = n_y g /\
      adds_visits (n_x g) (n_y g) (cell g) (cell g') pts.
Proof.
  intros p q ps. destruct (draw_spec p q ps) as (pts & Hr & Hd).
  exists pts. split; [exact Hr|]. destruct (enough_exists (q :: ps) p) as [N HN].
  exists N. intros fuel g Hf. exists (plots pts g). split; [apply Hd, HN, Hf|].
  apply plots_adds.
Qed.

Lemma segment_exact_steps : forall x1 y1 x2 y2 fuel g,
  (steps (x1, y1) (x2, y2) < Z.of_nat fuel ->
     exists g', draw_segment fuel x1 y1 x2 y2 g = Ok g') /\
  (Z.of_nat fuel <= steps (x1, y1) (x2, y2) ->
     draw_segment fuel x1 y1 x2 y2 g = Err OutOfFuel).
Proof.
  intros x1 y1 x2 y2 fuel g. destruct (draw_segment_spec x1 y1 x2 y2) as (seg & _ & Hok & Hoof).
  split; [intros H; exists (plots seg g); auto | auto].
Qed.

Lemma draw_too_short : forall fuel ps g, (length ps < 2)%nat ->
  draw fuel ps g = Err UnboundLocalError.
Proof. intros fuel [|p [|q ps]] g H; simpl in H; [reflexivity|reflexivity|lia]. Qed.

Lemma compiled_segment_same : forall fuel x1 y1 x2 y2 g,
  Z.abs x1 <= 268435456 -> Z.abs y1 <= 268435456 ->
  Z.abs x2 <= 268435456 -> Z.abs y2 <= 268435456 ->
  draw_segment32 fuel x1 y1 x2 y2 g = draw_segment fuel x1 y1 x2 y2 g.
Proof. intros. apply draw_segment32_same; unfold B28; lia. Qed.

Lemma draw_points_full : forall ps g,
  n_x (draw_points ps g) = n_x g /\ n_y (draw_points ps g) = n_y g /\
  adds_visits (n_x g) (n_y g) (cell g) (cell (draw_points ps g)) ps.
Proof. intros ps g. apply plots_adds. Qed.

Lemma diverge32 : forall fuel y1 err g,
  err = 1073741824 \/ err = -2147483648 \/ err = -1073741824 \/ err = 0 ->
  segment_loop32 fuel 1073741824 0 1073741824 0 1 (-1) 0 y1 err g = Err OutOfFuel.
Proof.
  induction fuel as [|fuel IH]; intros y1 err g Herr; [reflexivity|].
  cbn [segment_loop32]. change (0 =? 1073741824) with false. cbn [andb].
  destruct Herr as [Herr|[Herr|[Herr|Herr]]]; rewrite Herr; cbv zeta;
  match goal with |- context [wrap32 (2 * ?e)] =>
    let v := eval vm_compute in (wrap32 (2 * e)) in change (wrap32 (2 * e)) with v end;
  change (wrap32 (- 0)) with 0;
  match goal with |- context [0 <? ?e] =>
    let v := eval vm_compute in (0 <? e) in change (0 <? e) with v end; cbv iota;
  match goal with |- context [?e <? 1073741824] =>
    let v := eval vm_compute in (e <? 1073741824) in change (e <? 1073741824) with v end; cbv iota;
  apply IH; vm_compute; tauto.
Qed.

Lemma compiled_diverges : exists x1 y1 x2 y2, forall fuel g,
  draw_segment32 fuel x1 y1 x2 y2 g = Err OutOfFuel.
Proof.
  exists 0, 0, 1073741824, 0. intros fuel g. unfold draw_segment32.
  change (0 <? 1073741824) with true. cbv iota.
  change (0 <? 0) with false. cbv iota.
  change (wrap32 (1073741824 - 0)) with 1073741824.
  change (wrap32 (0 - 0)) with 0.
  change (wrap32 (1073741824 - 0)) with 1073741824.
  apply diverge32. left; reflexivity.
Qed.
