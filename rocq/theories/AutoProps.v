(** C25, C26: autoscaling a channel. *)
From Coq Require Import ZArith Bool Reals Lra Lia List.
Import ListNotations.
From Verif Require Import Base Num RBool IOModel AutoModel AutoSpec AutoProofs AutoIdealProofs.
Local Open Scope R_scope.

(** ** C25 *)
(** Whatever the instrument does, a call of autoscale ends in one of these ways. *)
Theorem C25_outcomes :
  forall D n (get_points : io D Z) set_points get_position get_scale set_position set_scale single read w r w',
  let acquires := acquires get_position get_scale single read in
  let acquires_at := acquires_at get_position get_scale single read in
  let tries := tries get_position get_scale set_position set_scale single read in
  autoscale n get_points set_points get_position get_scale set_position set_scale single read w = (r, w') ->
  (* it returns: the last of at most nine acquisitions was well placed, and
     since then only the original record length was restored *)
  (r = Ok tt /\ exists original w1 w2 k w3 data lo hi w4,
     get_points w = (Ok original, w1) /\ set_points 1000000%Z w1 = (Ok tt, w2) /\
     (k <= 8)%nat /\ tries k w2 w3 /\ acquires w3 data lo hi w4 /\ well_placed data lo hi /\
     set_points original w4 = (Ok tt, w')) \/
  (* it gives up after ten acquisitions, even if the tenth was well placed;
     the original record length is restored *)
  (r = Err TimeoutError /\ exists original w1 w2 w4,
     get_points w = (Ok original, w1) /\ set_points 1000000%Z w1 = (Ok tt, w2) /\
     (tries 10%nat w2 w4 \/ exists w3 data lo hi, tries 9%nat w2 w3 /\ acquires w3 data lo hi w4 /\ well_placed data lo hi) /\
     set_points original w4 = (Ok tt, w')) \/
  (* an operation on the instrument fails; nothing is done after that *)
  (exists e, r = Err e /\ failed get_points set_points get_position get_scale set_position set_scale single read e w') \/
  (* an acquisition has no samples, or no sensible limits or scale *)
  (exists original w1 w2 k w3 s data lo hi,
     get_points w = (Ok original, w1) /\ set_points 1000000%Z w1 = (Ok tt, w2) /\
     (k <= 9)%nat /\ tries k w2 w3 /\ acquires_at s w3 data lo hi w' /\
     (r = Err ValueError /\ data = [] \/ r = Err UndefinedBehaviour /\ data <> [] /\ (lo = hi \/ s = 0))).
Proof.
  intros D n get_points set_points get_position get_scale set_position set_scale single read w r w' acq acq_at try E.
  unfold autoscale in E. unfold iobind at 1 in E. destruct (get_points w) as [[original|e] w1] eqn:E1.
  2: { apply pair_equal_spec in E. destruct E as [<- <-]. right. right. left. exists e. split; [reflexivity|]. exists w, 0, 0%Z. auto. }
  unfold iobind at 1 in E. destruct (set_points 1000000%Z w1) as [[[]|e] w2] eqn:E2.
  2: { apply pair_equal_spec in E. destruct E as [<- <-]. right. right. left. exists e. split; [reflexivity|]. exists w1, 0, 1000000%Z. auto. }
  unfold iobind at 1 in E. destruct (attempts _ _ _ _ _ _ _ 10%nat w2) as [ra w4] eqn:E3.
  pose proof (attempts_spec n get_points set_points get_position get_scale set_position set_scale single read 10%nat w2 ra w4 E3) as SP.
  assert (forall m, ra = Ok m -> (exists x w5, set_points original w4 = (Err x, w5) /\ r = Err x /\ w' = w5) \/
    (set_points original w4 = (Ok tt, w') /\ r = match m with O => Err TimeoutError | S _ => Ok tt end)) as FIN.
  { intros m ->. unfold iobind in E. destruct (set_points original w4) as [[[]|e] w5].
    - right. destruct m; unfold raise, ret in E; apply pair_equal_spec in E; destruct E as [<- <-]; auto.
    - left. apply pair_equal_spec in E. destruct E as [<- <-]. eauto. }
  assert (forall x w5, set_points original w4 = (Err x, w5) -> r = Err x -> w' = w5 -> exists e, r = Err e /\
    failed get_points set_points get_position get_scale set_position set_scale single read e w') as FF.
  { intros x w5 F -> ->. exists x. split; [reflexivity|]. exists w4, 0, original. auto. }
  destruct SP as [(j & data & lo & hi & w3 & L & T & A & W & R)|[(R & T)|[(e & R & F)|(j & s & data & lo & hi & w3 & L & T & A & R)]]].
  - destruct (FIN _ R) as [(x & w5 & F & R' & EW)|(F & R')]; [right; right; left; eauto|].
    destruct (Nat.eq_dec j 9) as [->|NJ].
    + right. left. split; [exact R'|]. exists original, w1, w2, w4. split; [reflexivity|]. split; [exact E2|]. split; [|exact F].
      right. exists w3, data, lo, hi. auto.
    + left. assert (10 - S j = S (8 - j))%nat as EQ by lia. rewrite EQ in R'. split; [exact R'|].
      exists original, w1, w2, j, w3, data, lo, hi, w4. split; [reflexivity|]. split; [exact E2|]. split; [lia|]. auto.
  - destruct (FIN _ R) as [(x & w5 & F & R' & EW)|(F & R')]; [right; right; left; eauto|].
    right. left. split; [exact R'|]. exists original, w1, w2, w4. auto.
  - subst ra. apply pair_equal_spec in E. destruct E as [<- <-]. right. right. left. exists e. auto.
  - right. right. right. exists original, w1, w2, j, w3, s, data, lo, hi. split; [reflexivity|]. split; [exact E2|]. split; [lia|]. split; [exact T|].
    destruct R as [[R1 R2]|(R1 & R2 & R3)]; subst ra; apply pair_equal_spec in E; destruct E as [<- <-]; (split; [exact A|]); auto.
Qed.
Print Assumptions C25_outcomes.

(** The record length is lost if an acquisition fails. *)
Theorem C25_record_length_kept_refuted :
  exists (read : io ideal (list R * R * R)) w w', autoscale 8 ideal_get_points ideal_set_points ideal_get_position ideal_get_scale
      ideal_set_position ideal_set_scale ideal_single read w = (Err VisaIOError, w') /\
    i_points (w_dev w) = 10000%Z /\ i_points (w_dev w') = 1000000%Z.
Proof.
  exists (raise VisaIOError), (World (Ideal 1 0 10000) 1 [] (Some 0%nat)). eexists. split; [reflexivity|]. split; reflexivity.
Qed.

(** ** C26 *)
(** The part of the screen covered by a signal between [a] and [b], in screen
    heights from the middle. *)
Definition shown (a b : R) : R := Rmin (1 / 2) b - Rmax (- (1 / 2)) a.
Lemma shown_visible a b : a <= b -> 0 < shown a b -> visible a b = shown a b.
Proof.
  intros L. unfold shown, visible, clip1, Rmin, Rmax. destruct (Rle_dec (1 / 2) a), (Rle_dec (1 / 2) b); destruct (Rle_dec (- (1 / 2)) a); try destruct (Rle_dec (- (1 / 2)) b);
    destruct (Rle_dec (- (1 / 2)) (1 / 2)); lra.
Qed.
Lemma within_9 a b : a <= b ->
  (- (45 / 100) <= a /\ b <= 45 / 100 /\ 5 / 10 ^ 9 <= b - a) \/
  (1 / 10 <= shown a b /\ b - a <= 72 / 10) \/
  (1 / 10 ^ 7 <= shown a b /\ b - a <= 18 / 10) -> within 9%nat a b.
Proof.
  intros L. assert (0 < 1 / 10 ^ 7) as P7 by lra.
  intros [(A & B & S)|[(S & B)|(S & B)]].
  - apply (within_small 7%nat); try lra.
  - rewrite <- shown_visible in S by lra. eapply within_more; [apply (converges 1%nat); [exact L|exact S|cbn; lra]|lia].
  - rewrite <- shown_visible in S by lra. destruct (Rle_dec (1 / 10) (visible a b)) as [V|V].
    { eapply within_more; [apply (converges 0%nat); [exact L|exact V|cbn; lra]|lia]. }
    assert (forall x y, x <= y -> y - x <= 18 / 10 -> 1 / 10 ^ 7 <= visible x y -> visible x y < 1 / 10 -> - (45 / 100) <= x -> 45 / 100 < y -> within 9%nat x y) as UP.
    { intros x y LE LXY V1 V2 X Y. apply (converges_edge 0%nat 6%nat); try lra; try lia. }
    destruct (Rlt_dec a (- (45 / 100))) as [HA|HA], (Rlt_dec (45 / 100) b) as [HB|HB].
    + exfalso. apply V. pose proof (visible_around a b (1 / 10) ltac:(lra) ltac:(lra) ltac:(lra)). lra.
    + rewrite <- (Ropp_involutive a), <- (Ropp_involutive b). apply within_mirror; [lra|].
      assert (visible (- b) (- a) = visible a b) as EV by (unfold visible; rewrite !clip1_neg; lra). apply UP; rewrite ?EV; lra.
    + apply UP; lra.
    + eapply within_more; [apply (within_small 6%nat); try lra|lia].
      assert (visible a b = b - a) as <-; [|lra]. unfold visible.
      destruct (clip1_cases a) as [[? ->]|[[? ->]|[? ->]]]; destruct (clip1_cases b) as [[? ->]|[[? ->]|[? ->]]]; lra.
Qed.
(** On an ideal channel autoscale succeeds, and leaves the signal well placed
    and the record length as it was, if the signal
    - is inside the screen, not smaller than 5e-9 of its height, or
    - covers a tenth of the screen, at most 7.2 times as high as it, or
    - covers 1e-7 of the screen, at most 1.8 times as high as it. *)
Theorem C26_succeeds :
  forall n signal lowest highest w, (0 < n)%Z -> In lowest signal -> In highest signal ->
  (forall v, In v signal -> lowest <= v <= highest) -> 0 < i_scale (w_dev w) ->
  let a := on_screen (w_dev w) lowest / IZR n in
  let b := on_screen (w_dev w) highest / IZR n in
  (- (45 / 100) <= a /\ b <= 45 / 100 /\ 5 / 10 ^ 9 <= b - a) \/
  (1 / 10 <= shown a b /\ b - a <= 72 / 10) \/
  (1 / 10 ^ 7 <= shown a b /\ b - a <= 18 / 10) ->
  exists w', autoscale n ideal_get_points ideal_set_points ideal_get_position ideal_get_scale ideal_set_position ideal_set_scale
      ideal_single (ideal_read n signal) w = (Ok tt, w') /\
    well_placed (picture n (w_dev w') signal) (- (IZR n / 2)) (IZR n / 2) /\ i_points (w_dev w') = i_points (w_dev w).
Proof.
  intros n signal lowest highest w NP I1 I2 HV S a b C.
  assert (a <= b) as L by (apply (rel_mono n NP (w_dev w) lowest highest S), HV, I1).
  apply (within_9 a b L) in C. set (w1 := snd (ideal_set_points 1000000 w)).
  destruct (attempts_within n signal NP lowest highest I1 I2 HV 9%nat 1%nat w1 S C) as (j & w2 & E & WP & _).
  exists (snd (ideal_set_points (i_points (w_dev w)) w2)). split; [|split; [exact WP|]].
  - unfold autoscale. unfold iobind at 1, ideal_get_points at 1. unfold iobind at 1, ideal_set_points at 1, set_dev at 1.
    change (World _ _ _ _) with w1. unfold iobind at 1. change 10%nat with (9 + 1)%nat. rewrite E.
    replace (j + 1)%nat with (Datatypes.S j) by lia. reflexivity.
  - reflexivity.
Qed.
Print Assumptions C26_succeeds.
(** Inside the screen and not tiny: one correction suffices, at least eight of
    the ten attempts are left. *)
Theorem C26_one_correction :
  forall n signal lowest highest w, (0 < n)%Z -> In lowest signal -> In highest signal ->
  (forall v, In v signal -> lowest <= v <= highest) -> 0 < i_scale (w_dev w) ->
  let a := on_screen (w_dev w) lowest / IZR n in
  let b := on_screen (w_dev w) highest / IZR n in
  - (45 / 100) <= a -> b <= 45 / 100 -> 5 / 100 <= b - a ->
  exists left w', attempts n ideal_get_position ideal_get_scale ideal_set_position ideal_set_scale
      ideal_single (ideal_read n signal) 10%nat w = (Ok left, w') /\ (8 <= left)%nat /\
    well_placed (picture n (w_dev w') signal) (- (IZR n / 2)) (IZR n / 2).
Proof.
  intros n signal lowest highest w NP I1 I2 HV S a b A B L.
  destruct (attempts_within n signal NP lowest highest I1 I2 HV 2%nat 8%nat w S) as (j & w2 & E & WP & _).
  { apply within_inside; assumption. }
  exists (j + 8)%nat, w2. split; [exact E|]. split; [lia|exact WP].
Qed.
Print Assumptions C26_one_correction.
(** A signal of any height at most 1.8 * 4^k screens, a tenth of the screen
    covered, would be found with 3 k + 5 attempts. *)
Theorem C26_attempts_needed :
  forall n signal lowest highest w k m, (0 < n)%Z -> In lowest signal -> In highest signal ->
  (forall v, In v signal -> lowest <= v <= highest) -> 0 < i_scale (w_dev w) ->
  let a := on_screen (w_dev w) lowest / IZR n in
  let b := on_screen (w_dev w) highest / IZR n in
  1 / 10 <= shown a b -> b - a <= 18 / 10 * 4 ^ k ->
  exists left w', attempts n ideal_get_position ideal_get_scale ideal_set_position ideal_set_scale
      ideal_single (ideal_read n signal) (3 * k + 5 + m)%nat w = (Ok (left + m)%nat, w') /\
    well_placed (picture n (w_dev w') signal) (- (IZR n / 2)) (IZR n / 2).
Proof.
  intros n signal lowest highest w k m NP I1 I2 HV S a b V L.
  assert (a <= b) as LE by (apply (rel_mono n NP (w_dev w) lowest highest S), HV, I1).
  destruct (attempts_within n signal NP lowest highest I1 I2 HV (3 * k + 5)%nat m w S) as (j & w2 & E & WP & _).
  { apply converges; [exact LE| |exact L]. change (1 / 10 <= visible a b). rewrite shown_visible; [exact V|exact LE|lra]. }
  exists j, w2. split; [exact E|exact WP].
Qed.
Print Assumptions C26_attempts_needed.
(** It does not always succeed: a constant signal, or one more than a sixth of
    the screen above or below it, always ends in TimeoutError. *)
Lemma never_times_out n signal lowest highest w : (0 < n)%Z -> In lowest signal -> In highest signal ->
  (forall v, In v signal -> lowest <= v <= highest) -> 0 < i_scale (w_dev w) ->
  ~ within 10%nat (on_screen (w_dev w) lowest / IZR n) (on_screen (w_dev w) highest / IZR n) ->
  exists w', autoscale n ideal_get_points ideal_set_points ideal_get_position ideal_get_scale ideal_set_position ideal_set_scale
      ideal_single (ideal_read n signal) w = (Err TimeoutError, w') /\ i_points (w_dev w') = i_points (w_dev w).
Proof.
  intros NP I1 I2 HV S C. set (w1 := snd (ideal_set_points 1000000 w)).
  destruct (attempts_never n signal NP lowest highest I1 I2 HV 10%nat w1 S C) as (w2 & E & _).
  exists (snd (ideal_set_points (i_points (w_dev w)) w2)). split.
  - unfold autoscale. unfold iobind at 1, ideal_get_points at 1. unfold iobind at 1, ideal_set_points at 1, set_dev at 1.
    change (World _ _ _ _) with w1. unfold iobind at 1. rewrite E. reflexivity.
  - reflexivity.
Qed.
Theorem C26_always_succeeds_refuted :
  forall n signal lowest highest w, (0 < n)%Z -> In lowest signal -> In highest signal ->
  (forall v, In v signal -> lowest <= v <= highest) -> 0 < i_scale (w_dev w) ->
  lowest = highest \/ 2 / 3 * IZR n <= on_screen (w_dev w) lowest \/ on_screen (w_dev w) highest <= - (2 / 3 * IZR n) ->
  exists w', autoscale n ideal_get_points ideal_set_points ideal_get_position ideal_get_scale ideal_set_position ideal_set_scale
      ideal_single (ideal_read n signal) w = (Err TimeoutError, w') /\ i_points (w_dev w') = i_points (w_dev w).
Proof.
  intros n signal lowest highest w NP I1 I2 HV S C. apply (never_times_out n signal lowest highest); try assumption.
  pose proof (rel_mono n NP (w_dev w) lowest highest S (proj2 (HV _ I1))) as LE. unfold rel in LE.
  assert (0 < IZR n) as P by (apply (IZR_lt 0); exact NP).
  destruct C as [->|[C|C]]; [apply never_flat|apply never_far|apply never_far_below]; try exact LE.
  - apply Rmult_le_reg_r with (IZR n); [exact P|]. replace (on_screen (w_dev w) lowest / IZR n * IZR n) with (on_screen (w_dev w) lowest) by (field; lra). exact C.
  - apply Rmult_le_reg_r with (IZR n); [exact P|]. replace (on_screen (w_dev w) highest / IZR n * IZR n) with (on_screen (w_dev w) highest) by (field; lra). lra.
Qed.
Print Assumptions C26_always_succeeds_refuted.

(** ** Instances *)
(** 2 V peak to peak on 10 V per division, 10 divisions: small but visible. *)
Example C26_instance : let w := World (Ideal 10 1 5000) 1 [] (Some 0%nat) in exists w',
  autoscale 10 ideal_get_points ideal_set_points ideal_get_position ideal_get_scale ideal_set_position ideal_set_scale
    ideal_single (ideal_read 10 [0; 2; 1]) w = (Ok tt, w') /\ i_points (w_dev w') = 5000%Z.
Proof.
  intros w. destruct (C26_succeeds 10 [0; 2; 1] 0 2 w) as (w' & E & _ & P); try lia; try (cbn; auto; lra).
  - intros v [<-|[<-|[<-|[]]]]; lra.
  - left. unfold on_screen. cbn [w w_dev i_scale i_position]. lra.
  - exists w'. auto.
Qed.
(** 300 V on the same channel: clipped on both sides. *)
Example C26_instance_large : let w := World (Ideal 10 0 5000) 1 [] (Some 0%nat) in exists w',
  autoscale 10 ideal_get_points ideal_set_points ideal_get_position ideal_get_scale ideal_set_position ideal_set_scale
    ideal_single (ideal_read 10 [-150; 150]) w = (Ok tt, w').
Proof.
  intros w. destruct (C26_succeeds 10 [-150; 150] (-150) 150 w) as (w' & E & _); try lia; try (cbn; auto; lra).
  - intros v [<-|[<-|[]]]; lra.
  - right. left. unfold on_screen, shown. cbn [w w_dev i_scale i_position]. rewrite Rmin_left, Rmax_left by lra. lra.
  - exists w'. exact E.
Qed.
(** A signal 8 divisions above the middle of a screen of 10 is never found. *)
Example C26_instance_far : let w := World (Ideal 1 0 5000) 1 [] (Some 0%nat) in exists w',
  autoscale 10 ideal_get_points ideal_set_points ideal_get_position ideal_get_scale ideal_set_position ideal_set_scale
    ideal_single (ideal_read 10 [8; 9]) w = (Err TimeoutError, w').
Proof.
  intros w. destruct (C26_always_succeeds_refuted 10 [8; 9] 8 9 w) as (w' & E & _); try lia; try (cbn; auto; lra).
  - intros v [<-|[<-|[]]]; lra.
  - right. left. unfold on_screen. cbn [w w_dev i_scale i_position]. lra.
  - exists w'. exact E.
Qed.
