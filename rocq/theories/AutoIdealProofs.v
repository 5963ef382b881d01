(** Autoscaling an ideal channel. *)
From Coq Require Import ZArith Bool Reals Lra Lia List.
Import ListNotations.
From Verif Require Import Base Num RBool IOModel AutoModel AutoSpec AutoProofs.
Local Open Scope R_scope.

(** ** The control law on the signal, in screen units *)
Definition clip1 (x : R) : R := Rmax (- (1 / 2)) (Rmin (1 / 2) x).
Lemma clip1_cases x : (x <= - (1 / 2) /\ clip1 x = - (1 / 2)) \/ (- (1 / 2) <= x <= 1 / 2 /\ clip1 x = x) \/ (1 / 2 <= x /\ clip1 x = 1 / 2).
Proof. unfold clip1, Rmax, Rmin. destruct (Rle_dec (1 / 2) x); destruct (Rle_dec _ _); lra. Qed.
(** Magnification applied to a picture between A and B; None: accepted. *)
Definition zoom (A B : R) : option R :=
  let span := B - A in
  let clipped := if Rltb (6 / 10) span then 1 / 4 else if Rltb span (1 / 10) then 4 else 1 in
  if Rltb (45 / 100) B then Some clipped
  else if Rltb A (0 - 45 / 100) then Some clipped
  else if Rltb span (5 / 100) then Some 10
  else if Rltb span (75 / 100) || Rltb (85 / 100) span then Some (8 / 10 / span)
  else if Rltb (1 / 10) ((A + B) / 2) || Rltb ((A + B) / 2) (0 - 1 / 10) then Some 1
  else None.
Lemma zoom_scale s A B : 0 < s -> match zoom A B with
  | None => new_scale_of s A B = None
  | Some z => 0 < z /\ exists s', new_scale_of s A B = Some s' /\ 0 < s' /\ s / s' = z
  end.
Proof.
  intros S. unfold zoom, new_scale_of. cbv zeta.
  rcases; try reflexivity; try (split; [lra|]; eexists; (split; [reflexivity|]); split; [lra|field; lra]).
  all: assert (0 < 8 / 10 / (B - A)) as P by (apply Rdiv_lt_0_compat; lra); split; [exact P|]; eexists; (split; [reflexivity|]);
    split; [apply Rdiv_lt_0_compat; assumption|field; lra].
Qed.
(** Signal between [a] and [b] in screen units, after one attempt. *)
Definition next (a b : R) : option (R * R) :=
  let A := clip1 a in let B := clip1 b in
  match zoom A B with
  | None => None
  | Some z => Some ((a - (A + B) / 2) * z, (b - (A + B) / 2) * z)
  end.
(** Accepted within [k] attempts. *)
Fixpoint within (k : nat) (a b : R) : Prop :=
  match k with
  | O => False
  | S k => match next a b with None => True | Some (a', b') => within k a' b' end
  end.
Lemma within_more k a b : within k a b -> forall m, (k <= m)%nat -> within m a b.
Proof.
  revert a b. induction k as [|k IH]; intros a b W m L; [destruct W|]. destruct m as [|m]; [lia|]. cbn [within] in * .
  destruct (next a b) as [[a' b']|]; [|exact I]. apply IH; [exact W|lia].
Qed.

(** Inside the screen and big enough: at most one correction. *)
Lemma within_inside a b : - (45 / 100) <= a -> b <= 45 / 100 -> 5 / 100 <= b - a -> within 2 a b.
Proof.
  intros Ha Hb L. cbn [within]. unfold next. 
  destruct (clip1_cases a) as [[? E]|[[? E]|[? E]]]; try lra. destruct (clip1_cases b) as [[? E']|[[? E']|[? E']]]; try lra.
  rewrite E, E'. destruct (zoom a b) as [z|] eqn:Z; [|exact I].
  assert ((a - (a + b) / 2) * z = - ((b - a) * z / 2) /\ (b - (a + b) / 2) * z = (b - a) * z / 2) as [-> ->] by (split; field).
  assert (75 / 100 <= (b - a) * z <= 85 / 100) as Hz.
  { unfold zoom in Z. cbv zeta in Z. revert Z. rcases; try lra; intros Z; first [discriminate Z|injection Z as <-]; try lra.
    all: replace ((b - a) * (8 / 10 / (b - a))) with (8 / 10) by (field; lra). all: lra. }
  assert (375 / 1000 <= (b - a) * z / 2 <= 425 / 1000) as Hh by lra. clear Hz. revert Hh. generalize ((b - a) * z / 2). intros h Hh.
  destruct (clip1_cases (- h)) as [[? ->]|[[? ->]|[? ->]]]; try lra. destruct (clip1_cases h) as [[? ->]|[[? ->]|[? ->]]]; try lra.
  replace (zoom (- h) h) with (@None R); [exact I|]. unfold zoom. cbv zeta. rcases; try lra; reflexivity.
Qed.
(** Inside the screen but small: magnified tenfold until big enough. *)
Lemma within_small j : forall a b, - (45 / 100) <= a -> b <= 45 / 100 -> 5 / 100 <= (b - a) * 10 ^ j -> a <= b -> within (j + 2) a b.
Proof.
  induction j as [|j IH]; intros a b Ha Hb L LE.
  { apply within_inside; try assumption. cbn in L. lra. }
  destruct (Rle_dec (5 / 100) (b - a)) as [Y|N].
  { eapply within_more; [apply within_inside; assumption|lia]. }
  cbn [Nat.add within]. unfold next.
  destruct (clip1_cases a) as [[? E]|[[? E]|[? E]]]; try lra. destruct (clip1_cases b) as [[? E']|[[? E']|[? E']]]; try lra.
  rewrite E, E'. replace (zoom a b) with (Some 10).
  2: { unfold zoom. cbv zeta. rcases; try lra; reflexivity. }
  apply IH; try lra. replace ((b - (a + b) / 2) * 10 - (a - (a + b) / 2) * 10) with ((b - a) * 10) by field.
  cbn [pow] in L. lra.
Qed.
(** ** Clipped signals *)
(** Mirror images behave alike. *)
Lemma clip1_neg x : clip1 (- x) = - clip1 x.
Proof. destruct (clip1_cases x) as [[? ->]|[[? ->]|[? ->]]]; destruct (clip1_cases (- x)) as [[? ->]|[[? ->]|[? ->]]]; lra. Qed.
Lemma zoom_neg A B : A <= B -> zoom (- B) (- A) = zoom A B.
Proof. intros L. unfold zoom. cbv zeta. replace (- A - - B) with (B - A) by lra. replace ((- B + - A) / 2) with (- ((A + B) / 2)) by lra.
  rcases; try reflexivity; lra. Qed.
Lemma clip1_mono x y : x <= y -> clip1 x <= clip1 y.
Proof. intros L. destruct (clip1_cases x) as [[? ->]|[[? ->]|[? ->]]]; destruct (clip1_cases y) as [[? ->]|[[? ->]|[? ->]]]; lra. Qed.
Lemma next_le a b a' b' : a <= b -> next a b = Some (a', b') -> a' <= b'.
Proof.
  intros L. unfold next. pose proof (zoom_scale 1 (clip1 a) (clip1 b) ltac:(lra)) as ZS.
  destruct (zoom _ _) as [z|]; [|discriminate]. destruct ZS as [ZP _]. intros E. injection E as <- <-.
  apply Rmult_le_compat_r; lra.
Qed.
Lemma within_mirror k : forall a b, a <= b -> within k a b -> within k (- b) (- a).
Proof.
  induction k as [|k IH]; intros a b L W; [destruct W|]. cbn [within] in * . pose proof (next_le a b) as NL. unfold next in * .
  rewrite !clip1_neg, zoom_neg by (apply clip1_mono, L).
  destruct (zoom (clip1 a) (clip1 b)) as [z|]; [|exact I].
  specialize (NL _ _ L eq_refl). apply IH in W; [|exact NL].
  replace ((- b - (- clip1 b + - clip1 a) / 2) * z) with (- ((b - (clip1 a + clip1 b) / 2) * z)) by field.
  replace ((- a - (- clip1 b + - clip1 a) / 2) * z) with (- ((a - (clip1 a + clip1 b) / 2) * z)) by field. exact W.
Qed.
(** Both ends off the screen: shrunk four times. *)
Lemma next_both a b : a < - (45 / 100) -> 45 / 100 < b -> exists a' b', next a b = Some (a', b') /\ b' - a' = (b - a) / 4 /\
  a' <= - (1 / 10) /\ 1 / 10 <= b'.
Proof.
  intros Ha Hb. unfold next.
  destruct (clip1_cases a) as [[? ->]|[[? ->]|[? ->]]]; try lra; destruct (clip1_cases b) as [[? ->]|[[? ->]|[? ->]]]; try lra;
  (match goal with |- context [zoom ?A ?B] => replace (zoom A B) with (Some (1 / 4)) by (unfold zoom; cbv zeta; rcases; try lra; reflexivity) end;
   eexists _, _; split; [reflexivity|]; lra).
Qed.
(** Only the upper end near or off the edge, at least a tenth visible. *)
Lemma next_upper a b : - (45 / 100) <= a -> 45 / 100 < b -> 1 / 10 <= clip1 b - a -> exists a' b', next a b = Some (a', b') /\
  (6 / 10 < clip1 b - a /\ b' - a' = (b - a) / 4 /\ a' = - (clip1 b - a) / 8 /\ (clip1 b - a) / 8 <= b' \/
   clip1 b - a <= 6 / 10 /\ b' - a' = b - a /\ a' = - (clip1 b - a) / 2 /\ (clip1 b - a) / 2 <= b').
Proof.
  intros Ha Hb V. unfold next.
  destruct (clip1_cases a) as [[? E]|[[? E]|[? E]]]; try lra; rewrite E; destruct (clip1_cases b) as [[? Eb]|[[? Eb]|[? Eb]]]; try lra; rewrite Eb in * .
  all: destruct (Rlt_dec (6 / 10) (clip1 b - a)) as [Y|N].
  all: try (replace (zoom a b) with (Some (1 / 4)) by (unfold zoom; cbv zeta; rcases; try lra; reflexivity);
            eexists _, _; split; [reflexivity|]; left; lra).
  all: try (replace (zoom a b) with (Some 1) by (unfold zoom; cbv zeta; rcases; try lra; reflexivity);
            eexists _, _; split; [reflexivity|]; right; lra).
  all: try (replace (zoom a (1 / 2)) with (Some (1 / 4)) by (unfold zoom; cbv zeta; rcases; try lra; reflexivity);
            eexists _, _; split; [reflexivity|]; left; lra).
  all: try (replace (zoom a (1 / 2)) with (Some 1) by (unfold zoom; cbv zeta; rcases; try lra; reflexivity);
            eexists _, _; split; [reflexivity|]; right; lra).
Qed.
Definition visible (a b : R) : R := clip1 b - clip1 a.
(** What is known after a shrinking step. *)
Definition shrunk (L a b : R) : Prop := a <= 0 <= b /\ 1 / 10 <= visible a b /\ b - a = L / 4.
Lemma visible_around a b x : 0 <= x <= 1 / 2 -> a <= - x -> x <= b -> 2 * x <= visible a b.
Proof.
  intros X A B. unfold visible. destruct (clip1_cases a) as [[? ->]|[[? ->]|[? ->]]]; destruct (clip1_cases b) as [[? ->]|[[? ->]|[? ->]]]; lra.
Qed.
Lemma within_step k a b a' b' : next a b = Some (a', b') -> within k a' b' -> within (S k) a b.
Proof. intros E W. cbn [within]. rewrite E. exact W. Qed.
Lemma shrink_upper n a b : - (45 / 100) <= a -> 45 / 100 < b -> 1 / 10 <= clip1 b - a ->
  (forall a' b', shrunk (b - a) a' b' -> within (2 + n) a' b') -> within (5 + n) a b.
Proof.
  intros Ha Hb V W.
  assert (forall x y, - (45 / 100) <= x -> 45 / 100 < y -> y - x = b - a -> 6 / 10 < clip1 y - x -> within (3 + n) x y) as BIG.
  { intros x y Hx Hy L V'. destruct (next_upper x y Hx Hy ltac:(lra)) as (x' & y' & E & [(_ & L' & Ex & Ey)|(F & _)]); [|lra].
    eapply within_step; [exact E|]. apply W. assert (clip1 y <= 1 / 2) by (destruct (clip1_cases y) as [[? ->]|[[? ->]|[? ->]]]; lra).
    split; [lra|]. split; [|lra]. pose proof (visible_around x' y' ((clip1 y - x) / 8) ltac:(lra) ltac:(lra) Ey). lra. }
  destruct (Rlt_dec (6 / 10) (clip1 b - a)) as [Y|N].
  { eapply within_more; [apply BIG; auto|lia]. }
  destruct (next_upper a b Ha Hb V) as (a1 & b1 & E1 & [(F & _)|(V1 & L1 & Ea1 & Eb1)]); [lra|].
  apply (within_step (4 + n) a b a1 b1 E1).
  destruct (Rle_dec b1 (45 / 100)) as [IN|OUT].
  { eapply within_more; [apply within_inside; lra|lia]. }
  assert (45 / 100 <= clip1 b1 <= 1 / 2) as C1 by (destruct (clip1_cases b1) as [[? ->]|[[? ->]|[? ->]]]; lra).
  destruct (Rlt_dec (6 / 10) (clip1 b1 - a1)) as [Y1|N1].
  { eapply within_more; [apply BIG; lra|lia]. }
  destruct (next_upper a1 b1 ltac:(lra) ltac:(lra) ltac:(lra)) as (a2 & b2 & E2 & [(F & _)|(V2 & L2 & Ea2 & Eb2)]); [lra|].
  apply (within_step (3 + n) a1 b1 a2 b2 E2).
  destruct (Rle_dec b2 (45 / 100)) as [IN2|OUT2].
  { eapply within_more; [apply within_inside; lra|lia]. }
  assert (45 / 100 <= clip1 b2 <= 1 / 2) as C2 by (destruct (clip1_cases b2) as [[? ->]|[[? ->]|[? ->]]]; lra).
  apply BIG; lra.
Qed.
Lemma shrunk_mirror L a b : shrunk L a b -> shrunk L (- b) (- a).
Proof. intros (H1 & H2 & H3). split; [lra|]. split; [|lra]. unfold visible in * . rewrite !clip1_neg. lra. Qed.
Lemma shrink n a b : a <= b -> 1 / 10 <= visible a b -> (forall a' b', shrunk (b - a) a' b' -> within (2 + n) a' b') -> within (5 + n) a b.
Proof.
  intros LE V W. unfold visible in V.
  destruct (Rlt_dec a (- (45 / 100))) as [A|A], (Rlt_dec (45 / 100) b) as [B|B].
  - destruct (next_both a b A B) as (a' & b' & E & L & Ha & Hb). apply (within_step (4 + n) a b a' b' E).
    eapply within_more; [apply W|lia]. split; [lra|]. split; [|lra]. pose proof (visible_around a' b' (1 / 10) ltac:(lra) Ha Hb). lra.
  - rewrite <- (Ropp_involutive a), <- (Ropp_involutive b). apply within_mirror; [lra|].
    assert (clip1 b = b \/ b < - (1 / 2)) as [CB|CB] by (destruct (clip1_cases b) as [[? ->]|[[? ->]|[? ->]]]; lra).
    + apply shrink_upper; try lra; [rewrite clip1_neg; lra|]. intros a' b' S. rewrite <- (Ropp_involutive a'), <- (Ropp_involutive b').
      apply within_mirror; [destruct S; lra|]. apply W. replace (b - a) with (- a - - b) by lra. apply shrunk_mirror, S.
    + destruct (clip1_cases a) as [[? Ea]|[[? Ea]|[? Ea]]]; destruct (clip1_cases b) as [[? Eb]|[[? Eb]|[? Eb]]]; rewrite Ea, Eb in V; lra.
  - assert (clip1 a = a \/ 1 / 2 < a) as [CA|CA] by (destruct (clip1_cases a) as [[? ->]|[[? ->]|[? ->]]]; lra).
    + apply shrink_upper; try lra. exact W.
    + destruct (clip1_cases a) as [[? Ea]|[[? Ea]|[? Ea]]]; destruct (clip1_cases b) as [[? Eb]|[[? Eb]|[? Eb]]]; rewrite Ea, Eb in V; lra.
  - eapply within_more; [apply within_inside; try lra|lia].
    destruct (clip1_cases a) as [[? Ea]|[[? Ea]|[? Ea]]]; destruct (clip1_cases b) as [[? Eb]|[[? Eb]|[? Eb]]]; rewrite Ea, Eb in V; lra.
Qed.
(** Signals of 1.8 * 4^k screen heights, a tenth of the screen visible. *)
Lemma converges k : forall a b, a <= b -> 1 / 10 <= visible a b -> b - a <= 18 / 10 * 4 ^ k -> within (3 * k + 5) a b.
Proof.
  induction k as [|k IH]; intros a b LE V L.
  - apply (shrink 0); try assumption. intros a' b' (H1 & H2 & H3). apply within_inside; try (cbn in L; lra).
    unfold visible in H2. destruct (clip1_cases a') as [[? Ea]|[[? Ea]|[? Ea]]]; destruct (clip1_cases b') as [[? Eb]|[[? Eb]|[? Eb]]];
      rewrite Ea, Eb in H2; cbn in L; lra.
  - replace (3 * S k + 5)%nat with (5 + (3 * k + 3))%nat by lia. apply shrink; try assumption.
    intros a' b' (H1 & H2 & H3). replace (2 + (3 * k + 3))%nat with (3 * k + 5)%nat by lia. apply IH; [lra|exact H2|].
    cbn [pow] in L. lra.
Qed.
(** Any visible part will do, at the price of an attempt and a factor 4. *)
Lemma converges_edge k j n a b : - (45 / 100) <= a -> 45 / 100 < b -> visible a b < 1 / 10 -> b - a <= 18 / 10 * 4 ^ k ->
  5 / 100 <= 4 * visible a b * 10 ^ j -> (3 * k + 9 <= n)%nat -> (j + 3 <= n)%nat -> within n a b.
Proof.
  intros Ha Hb V L VJ N1 N2. assert (0 < 10 ^ j) as P by (apply pow_lt; lra).
  assert (0 < visible a b) as V0.
  { destruct (Rle_dec (visible a b) 0) as [X|X]; [|lra]. exfalso. assert (visible a b * 10 ^ j <= 0 * 10 ^ j) by (apply Rmult_le_compat_r; lra). lra. }
  assert (clip1 a = a) as CA by (unfold visible in V0; destruct (clip1_cases a) as [[? E]|[[? E]|[? E]]]; try lra;
    destruct (clip1_cases b) as [[? E']|[[? E']|[? E']]]; rewrite E, E' in V0; lra).
  unfold visible in * . rewrite CA in * .
  assert (45 / 100 <= clip1 b <= 1 / 2 /\ clip1 b <= b) as CB by (destruct (clip1_cases b) as [[? ->]|[[? ->]|[? ->]]]; lra).
  destruct n as [|n]; [lia|]. eapply (within_step n a b).
  { unfold next. rewrite CA. replace (zoom a (clip1 b)) with (Some 4); [reflexivity|]. unfold zoom. cbv zeta.
    destruct (clip1_cases b) as [[? E]|[[? E]|[? E]]]; rewrite E in * ; rcases; try lra; reflexivity. }
  set (a' := (a - (a + clip1 b) / 2) * 4). set (b' := (b - (a + clip1 b) / 2) * 4).
  assert (a' = - 2 * (clip1 b - a)) as Ea by (unfold a'; lra). assert (b' - a' = 4 * (b - a)) as EL by (unfold a', b'; lra).
  assert (2 * (clip1 b - a) <= b') as Eb by (unfold b'; lra). clearbody a' b'.
  destruct (Rle_dec b' (45 / 100)) as [IN|OUT].
  - eapply within_more; [apply (within_small j); try lra|lia].
    apply Rle_trans with (4 * (clip1 b - a) * 10 ^ j); [exact VJ|]. apply Rmult_le_compat_r; lra.
  - eapply within_more; [apply (converges (S k)); [lra| |cbn [pow]; lra]|lia].
    unfold visible. destruct (clip1_cases a') as [[? ->]|[[? ->]|[? ->]]]; destruct (clip1_cases b') as [[? ->]|[[? ->]|[? ->]]]; lra.
Qed.
(** Hopeless signals: constant ones, and those more than a sixth of the screen
    away from it. *)
Lemma never_flat k a : ~ within k a a.
Proof.
  revert a. induction k as [|k IH]; intros a W; [exact W|]. cbn [within] in W. unfold next in W.
  destruct (zoom (clip1 a) (clip1 a)) as [z|] eqn:Z; [exact (IH _ W)|].
  unfold zoom in Z. cbv zeta in Z. revert Z. rcases; intros Z; try discriminate Z; lra.
Qed.
Lemma never_far k a b : 2 / 3 <= a -> a <= b -> ~ within k a b.
Proof.
  revert a b. induction k as [|k IH]; intros a b A L W; [exact W|]. cbn [within] in W. unfold next in W.
  destruct (clip1_cases a) as [[? E]|[[? E]|[? E]]]; try lra. destruct (clip1_cases b) as [[? E']|[[? E']|[? E']]]; try lra.
  rewrite E, E' in W. replace (zoom (1 / 2) (1 / 2)) with (Some 4) in W by (unfold zoom; cbv zeta; rcases; try lra; reflexivity).
  apply IH in W; [exact W|lra..].
Qed.
Lemma never_far_below k a b : b <= - (2 / 3) -> a <= b -> ~ within k a b.
Proof. intros B L W. apply within_mirror in W; [|exact L]. apply never_far in W; [exact W|lra..]. Qed.

(** ** The channel *)
Section Ideal.
Variable n : Z.
Variable signal : list R.
Hypothesis NP : (0 < n)%Z.
Variable vmin vmax : R.
Hypothesis Imin : In vmin signal.
Hypothesis Imax : In vmax signal.
Hypothesis Hv : forall v, In v signal -> vmin <= v <= vmax.

Definition rel (c : ideal) (v : R) : R := on_screen c v / IZR n.
Lemma nR : 0 < IZR n. Proof. apply (IZR_lt 0). exact NP. Qed.
Lemma clip_rel y : height (- (IZR n / 2)) (IZR n / 2) (clip n y) - 1 / 2 = clip1 (y / IZR n).
Proof.
  pose proof nR as P. unfold height, clip. replace (IZR n / 2 - - (IZR n / 2)) with (IZR n) by lra.
  assert (y = y / IZR n * IZR n) as Ey by (field; lra). revert Ey. generalize (y / IZR n). intros x ->.
  assert (forall u v, u <= v -> u * IZR n <= v * IZR n) as MN by (intros; apply Rmult_le_compat_r; lra).
  destruct (clip1_cases x) as [[H ->]|[[H ->]|[H ->]]].
  - apply MN in H. rewrite Rmin_right, Rmax_left by lra. field. lra.
  - destruct H as [H1 H2]. apply MN in H1, H2. rewrite Rmin_right, Rmax_right by lra. field. lra.
  - apply MN in H. rewrite Rmin_left, Rmax_right by lra. field. lra.
Qed.
Lemma rel_mono c v v' : 0 < i_scale c -> v <= v' -> rel c v <= rel c v'.
Proof.
  intros S L. unfold rel, on_screen, Rdiv. apply Rmult_le_compat_r; [left; apply Rinv_0_lt_compat, nR|].
  apply Rplus_le_compat_r, Rmult_le_compat_r; [left; apply Rinv_0_lt_compat, S|exact L].
Qed.
Definition screen_data (c : ideal) : list R := map (fun y => height (- (IZR n / 2)) (IZR n / 2) y - 1 / 2) (picture n c signal).
Lemma screen_data_eq c : screen_data c = map (fun v => clip1 (rel c v)) signal.
Proof. unfold screen_data, picture. rewrite map_map. apply map_ext. intros v. apply clip_rel. Qed.
Lemma screen_extremes c : 0 < i_scale c -> py_min (screen_data c) = Ok (clip1 (rel c vmin)) /\ py_max (screen_data c) = Ok (clip1 (rel c vmax)).
Proof.
  intros S. rewrite screen_data_eq. set (l := map _ signal).
  assert (In (clip1 (rel c vmin)) l) as I1 by (apply in_map_iff; eauto). assert (In (clip1 (rel c vmax)) l) as I2 by (apply in_map_iff; eauto).
  assert (forall y, In y l -> clip1 (rel c vmin) <= y <= clip1 (rel c vmax)) as H.
  { intros y I. apply in_map_iff in I. destruct I as (v & <- & I). specialize (Hv v I). split; apply clip1_mono, rel_mono; try assumption; lra. }
  destruct (min_max l) as (A & B & -> & -> & IA & IB & HAB); [intros E; rewrite E in I1; destruct I1|].
  pose proof (H _ IA). pose proof (H _ IB). pose proof (HAB _ I1). pose proof (HAB _ I2). split; f_equal; lra.
Qed.
Local Notation attempts := (attempts n ideal_get_position ideal_get_scale ideal_set_position ideal_set_scale ideal_single (ideal_read n signal)).
Lemma attempt_eq k w : 0 < i_scale (w_dev w) ->
  exists w', i_points (w_dev w') = i_points (w_dev w) /\ 0 < i_scale (w_dev w') /\
  match next (rel (w_dev w) vmin) (rel (w_dev w) vmax) with
  | None => attempts (S k) w = (Ok k, w) /\ well_placed (picture n (w_dev w) signal) (- (IZR n / 2)) (IZR n / 2)
  | Some (a, b) => attempts (S k) w = attempts k w' /\ rel (w_dev w') vmin = a /\ rel (w_dev w') vmax = b
  end.
Proof.
  intros S. pose proof nR as P. assert (- (IZR n / 2) <> IZR n / 2) as NL by lra.
  destruct (screen_extremes (w_dev w) S) as [EA EB].
  assert (attempts (Datatypes.S k) w = match correction (T := R) n (i_position (w_dev w)) (i_scale (w_dev w)) (screen_data (w_dev w)) with
     | Err e => (Err e, w) | Ok None => (Ok k, w)
     | Ok (Some (s', p')) => attempts k (snd (set_dev (Ideal s' p' (i_points (w_dev w))) w)) end) as ->.
  { cbn [AutoModel.attempts]. unfold iobind, ideal_get_position, ideal_get_scale, ideal_single, ret, ideal_read, lift.
    rewrite screen_ok by exact NL. change (map _ (picture n (w_dev w) signal)) with (screen_data (w_dev w)).
    destruct (correction _ _ _ _) as [[[s' p']|]|e]; reflexivity. }
  rewrite (correction_ok n _ _ _ _ _ EA EB) by lra.
  unfold next. set (A := clip1 (rel (w_dev w) vmin)) in * . set (B := clip1 (rel (w_dev w) vmax)) in * .
  pose proof (zoom_scale (i_scale (w_dev w)) A B S) as ZS. destruct (zoom A B) as [z|].
  - destruct ZS as [ZP (s' & -> & S' & E)]. 
    exists (snd (set_dev (Ideal s' ((i_position (w_dev w) - IZR n * ((A + B) / 2)) * i_scale (w_dev w) / s') (i_points (w_dev w))) w)).
    split; [reflexivity|]. split; [exact S'|]. split; [reflexivity|].
    cbn [set_dev snd w_dev]. unfold rel, on_screen. cbn [i_scale i_position]. rewrite <- E. split; field; lra.
  - exists w. split; [reflexivity|]. split; [exact S|]. rewrite ZS. split; [reflexivity|].
    destruct (min_max (screen_data (w_dev w))) as (A' & B' & EA' & EB' & IA & IB & HAB).
    { intros E. rewrite E in EA. discriminate EA. }
    rewrite EA in EA'. rewrite EB in EB'. injection EA' as <-. injection EB' as <-.
    apply (placed_none (i_scale (w_dev w)) (picture n (w_dev w) signal) _ _ A B NL IA IB HAB). exact ZS.
Qed.
Lemma attempts_within k m : forall w, 0 < i_scale (w_dev w) -> within k (rel (w_dev w) vmin) (rel (w_dev w) vmax) ->
  exists j w', attempts (k + m) w = (Ok (j + m)%nat, w') /\ well_placed (picture n (w_dev w') signal) (- (IZR n / 2)) (IZR n / 2) /\
    i_points (w_dev w') = i_points (w_dev w).
Proof.
  induction k as [|k IH]; intros w S W; [destruct W|]. cbn [within] in W. cbn [Nat.add].
  destruct (attempt_eq (k + m) w S) as (w1 & P1 & S1 & H). destruct (next _ _) as [[a b]|].
  - destruct H as (-> & <- & <-). destruct (IH w1 S1 W) as (j & w2 & E & WP & P2). exists j, w2. split; [exact E|]. split; [exact WP|congruence].
  - destruct H as [-> WP]. exists k, w. auto.
Qed.
Lemma attempts_never k : forall w, 0 < i_scale (w_dev w) -> ~ within k (rel (w_dev w) vmin) (rel (w_dev w) vmax) ->
  exists w', attempts k w = (Ok 0%nat, w') /\ i_points (w_dev w') = i_points (w_dev w).
Proof.
  induction k as [|k IH]; intros w S W; [exists w; auto|]. cbn [within] in W.
  destruct (attempt_eq k w S) as (w1 & P1 & S1 & H). destruct (next _ _) as [[a b]|]; [|destruct (W I)].
  destruct H as (-> & <- & <-). destruct (IH w1 S1 W) as (w2 & E & P2). exists w2. split; [exact E|congruence].
Qed.
End Ideal.
