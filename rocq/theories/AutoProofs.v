(** Proofs about autoscaling. *)
From Coq Require Import ZArith Bool Reals Lra Lia List.
Import ListNotations.
From Verif Require Import Base Num RBool IOModel AutoModel AutoSpec.
Local Open Scope R_scope.

Lemma cst_R n d : cst (T := R) n d = IZR n / IZR d. Proof. reflexivity. Qed.
Lemma np_div_R a b : b <> 0 -> np_div (T := R) a b = Ok (a / b).
Proof. intros N. unfold np_div. cbn. rewrite (proj2 (Reqb_false b 0) N). reflexivity. Qed.
Lemma np_div_0 a : np_div (T := R) a 0 = Err UndefinedBehaviour.
Proof. unfold np_div. cbn. rewrite (proj2 (Reqb_true 0 0) eq_refl). reflexivity. Qed.
Lemma screen_ok data lo hi : lo <> hi -> screen (T := R) data lo hi = Ok (map (fun y => height lo hi y - 1 / 2) data).
Proof.
  intros N. unfold screen. induction data as [|y l IH]; [reflexivity|]. cbn [mapM map]. rewrite IH, np_div_R by (cbn; lra). reflexivity.
Qed.
Lemma screen_bad y data lo : screen (T := R) (y :: data) lo lo = Err UndefinedBehaviour.
Proof. unfold screen. cbn [mapM]. replace (nsub lo lo) with 0 by (cbn; lra). rewrite np_div_0. reflexivity. Qed.

(** What is done for a picture between [A] and [B] in screen units. *)
Definition new_scale_of (s A B : R) : option R :=
  let span := B - A in
  let clipped := if Rltb (6 / 10) span then s * 4 else if Rltb span (1 / 10) then s / 4 else s in
  if Rltb (45 / 100) B then Some clipped
  else if Rltb A (0 - 45 / 100) then Some clipped
  else if Rltb span (5 / 100) then Some (s / 10)
  else if Rltb span (75 / 100) || Rltb (85 / 100) span then Some (s / (8 / 10 / span))
  else if Rltb (1 / 10) ((A + B) / 2) || Rltb ((A + B) / 2) (0 - 1 / 10) then Some s
  else None.
Ltac rcases := repeat match goal with
  | |- context [if Rltb ?x ?y then _ else _] => let C := fresh "C" in destruct (Rltb x y) eqn:C; [apply Rltb_true in C|apply Rltb_false in C]
  | |- context [Rltb ?x ?y || Rltb ?z ?t] => let C := fresh "C" in let C' := fresh "C" in
      destruct (Rltb x y) eqn:C; [apply Rltb_true in C|apply Rltb_false in C; destruct (Rltb z t) eqn:C'; [apply Rltb_true in C'|apply Rltb_false in C']]; cbn [orb]
  end.
Lemma scale_span s span : s <> 0 -> 5 / 100 <= span -> 8 / 10 / span <> 0 /\ s / (8 / 10 / span) <> 0 /\ s / (8 / 10 / span) = s * span / (8 / 10).
Proof.
  intros N H. assert (8 / 10 / span <> 0) as A.
  { unfold Rdiv. apply Rmult_integral_contrapositive_currified; [lra|]. apply Rinv_neq_0_compat. lra. }
  split; [exact A|]. split; [unfold Rdiv; apply Rmult_integral_contrapositive_currified; [exact N|apply Rinv_neq_0_compat, A]|].
  field. lra.
Qed.
Lemma new_scale_nonzero s A B s' : s <> 0 -> new_scale_of s A B = Some s' -> s' <> 0.
Proof.
  intros N. assert (s / 4 <> 0 /\ s * 4 <> 0 /\ s / 10 <> 0) as (N1 & N2 & N3) by lra. unfold new_scale_of. cbv zeta.
  rcases; intros E; try discriminate E; injection E as <-; try assumption; try apply scale_span; auto.
Qed.
Lemma correction_ok n p s data A B : py_min data = Ok A -> py_max data = Ok B -> s <> 0 ->
  correction (T := R) n p s data = Ok (match new_scale_of s A B with
    | Some s' => Some (s', (p - IZR n * ((A + B) / 2)) * s / s')
    | None => None end).
Proof.
  intros EA EB N. unfold correction. rewrite EA, EB. cbn [bind].
  assert (forall s' m, s' <> 0 -> recentre (T := R) n p s m s' = Ok ((p - IZR n * m) * s / s')) as RC.
  { intros s' m N'. unfold recentre. rewrite np_div_R by exact N'. reflexivity. }
  assert (s / 4 <> 0 /\ s * 4 <> 0 /\ s / 10 <> 0) as (N1 & N2 & N3) by lra.
  unfold new_scale_of, clipped_scale, cst. cbn [nlt nadd nsub nmul ndiv nofZ neq NumR]. cbv zeta.
  rcases; cbn [bind orb]; rewrite ?RC by assumption; cbn [bind]; try reflexivity.
  all: try (rewrite (proj2 (Reqb_true s s) eq_refl); cbn [negb]; rcases; cbn [orb bind]; rewrite ?RC by assumption; try reflexivity; lra).
  all: destruct (scale_span s (B - A) N ltac:(lra)) as (H1 & H2 & H3); rewrite np_div_R by exact H1; cbn [bind].
  all: assert (Reqb (s / (8 / 10 / (B - A))) s = false) as RE by
    (apply Reqb_false; rewrite H3; intros E; assert (s * (B - A - 8 / 10) = 0) as Z by lra; apply Rmult_integral in Z; lra).
  all: rewrite ?RE; cbn [negb orb]; rewrite RC by exact H2; reflexivity.
Qed.

Lemma min_max (l : list R) : l <> [] -> exists A B, py_min l = Ok A /\ py_max l = Ok B /\ In A l /\ In B l /\ forall y, In y l -> A <= y <= B.
Proof.
  intros N. destruct (py_min_R l N) as (A & EA & IA & HA). destruct (py_max_R l N) as (B & EB & IB & HB).
  exists A, B. split; [exact EA|]. split; [exact EB|]. split; [exact IA|]. split; [exact IB|]. intros y I. split; auto.
Qed.
(** No correction exactly for well placed pictures. *)
Lemma new_scale_none s A B : new_scale_of s A B = None <->
  - (45 / 100) <= A /\ B <= 45 / 100 /\ 75 / 100 <= B - A <= 85 / 100 /\ - (1 / 10) <= (A + B) / 2 <= 1 / 10.
Proof.
  unfold new_scale_of. cbv zeta. split.
  - rcases; intros E; try discriminate E; lra.
  - intros H. rcases; try lra; reflexivity.
Qed.
Lemma placed_none s data lo hi A B : lo <> hi ->
  In A (map (fun y => height lo hi y - 1 / 2) data) -> In B (map (fun y => height lo hi y - 1 / 2) data) ->
  (forall y, In y (map (fun y => height lo hi y - 1 / 2) data) -> A <= y <= B) ->
  (new_scale_of s A B = None <-> well_placed data lo hi).
Proof.
  intros N IA IB H. rewrite new_scale_none. apply in_map_iff in IA, IB. destruct IA as (ya & EA & IA), IB as (yb & EB & IB).
  assert (forall y, In y data -> A + 1 / 2 <= height lo hi y <= B + 1 / 2) as H'.
  { intros y I. specialize (H (height lo hi y - 1 / 2)). assert (A <= height lo hi y - 1 / 2 <= B) by (apply H, in_map_iff; eauto). lra. }
  split.
  - intros (H1 & H2 & H3 & H4). split; [exact N|]. exists (A + 1 / 2), (B + 1 / 2). split; [|split; [|split; [exact H'|lra]]].
    + apply in_map_iff. exists ya. split; [lra|exact IA].
    + apply in_map_iff. exists yb. split; [lra|exact IB].
  - intros (_ & b & t & Ib & It & Hbt & R). apply in_map_iff in Ib, It. destruct Ib as (y1 & E1 & I1), It as (y2 & E2 & I2).
    pose proof (H' _ I1). pose proof (H' _ I2). pose proof (Hbt _ IA). pose proof (Hbt _ IB).
    assert (b = A + 1 / 2) by lra. assert (t = B + 1 / 2) by lra. subst b t. lra.
Qed.

Lemma correction_cases n p s data A B : py_min data = Ok A -> py_max data = Ok B ->
  (correction (T := R) n p s data = Ok None /\ new_scale_of s A B = None) \/
  (exists s' p', correction (T := R) n p s data = Ok (Some (s', p')) /\ new_scale_of s A B <> None) \/
  (correction (T := R) n p s data = Err UndefinedBehaviour /\ s = 0).
Proof.
  intros EA EB. destruct (Req_EM_T s 0) as [->|N].
  2: { rewrite (correction_ok n p s data A B EA EB N). destruct (new_scale_of s A B) as [s'|]; [right; left; eexists _, _; split; [reflexivity|discriminate]|auto]. }
  unfold correction. rewrite EA, EB. cbn [bind].
  assert (forall m, recentre (T := R) n p 0 m 0 = Err UndefinedBehaviour) as RC by (intros m; apply np_div_0).
  unfold new_scale_of, clipped_scale, cst. cbn [nlt nadd nsub nmul ndiv nofZ neq NumR]. cbv zeta.
  replace (0 * 4) with 0 by lra. replace (0 / 4) with 0 by lra. replace (0 / 10) with 0 by lra.
  rcases; cbn [bind orb]; rewrite ?RC; cbn [bind]; auto.
  all: try (rewrite (proj2 (Reqb_true 0 0) eq_refl); cbn [negb orb]; rcases; cbn [orb bind]; rewrite ?RC; auto; lra).
  all: rewrite np_div_R by (apply (scale_span 1); lra); cbn [bind]; replace (0 / (8 / 10 / (B - A))) with 0 by (unfold Rdiv; lra);
    rewrite ?RC; cbn [bind]; auto; rewrite (proj2 (Reqb_true 0 0) eq_refl); cbn [negb orb].
  all: right; left; eexists _, _; (split; [reflexivity|discriminate]).
Qed.

(** ** Runs *)
Section Runs.
Context {D : Type}.
Variable n_div : Z.
Variable get_points : io D Z.
Variable set_points : Z -> io D unit.
Variable get_position get_scale : io D R.
Variable set_position set_scale : R -> io D unit.
Variable single : io D unit.
Variable read : io D (list R * R * R).

Local Notation attempts := (attempts n_div get_position get_scale set_position set_scale single read).
Local Notation acquires := (acquires get_position get_scale single read).
Local Notation acquires_at := (acquires_at get_position get_scale single read).
Local Notation tries := (tries get_position get_scale set_position set_scale single read).
Local Notation failed := (failed get_points set_points get_position get_scale set_position set_scale single read).

(** What a run of the loop can do. *)
Lemma attempts_spec k : forall w r w', attempts k w = (r, w') ->
  (exists j data lo hi w1, (j < k)%nat /\ tries j w w1 /\ acquires w1 data lo hi w' /\ well_placed data lo hi /\ r = Ok (k - S j)%nat) \/
  (r = Ok 0%nat /\ tries k w w') \/
  (exists e, r = Err e /\ failed e w') \/
  (exists j s data lo hi w1, (j < k)%nat /\ tries j w w1 /\ acquires_at s w1 data lo hi w' /\
     (r = Err ValueError /\ data = [] \/ r = Err UndefinedBehaviour /\ data <> [] /\ (lo = hi \/ s = 0))).
Proof.
  induction k as [|k IH]; intros w r w'; cbn [AutoModel.attempts].
  - unfold ret. intros E. apply pair_equal_spec in E. destruct E as [<- <-]. right. left. split; [reflexivity|constructor].
  - unfold iobind at 1. destruct (get_position w) as [[p|e] w1] eqn:E1.
    2: { intros E. apply pair_equal_spec in E. destruct E as [<- <-]. right. right. left. exists e. split; [reflexivity|].
         exists w, 0, 0%Z. auto 10. }
    unfold iobind at 1. destruct (get_scale w1) as [[s|e] w2] eqn:E2.
    2: { intros E. apply pair_equal_spec in E. destruct E as [<- <-]. right. right. left. exists e. split; [reflexivity|].
         exists w1, 0, 0%Z. auto 10. }
    unfold iobind at 1. destruct (single w2) as [[[]|e] w3] eqn:E3.
    2: { intros E. apply pair_equal_spec in E. destruct E as [<- <-]. right. right. left. exists e. split; [reflexivity|].
         exists w2, 0, 0%Z. auto 10. }
    unfold iobind at 1. destruct (read w3) as [[[[data lo] hi]|e] w4] eqn:E4.
    2: { intros E. apply pair_equal_spec in E. destruct E as [<- <-]. right. right. left. exists e. split; [reflexivity|].
         exists w3, 0, 0%Z. auto 10. }
    assert (acquires_at s w data lo hi w4) as AC by (exists p, w1, w2, w3; auto).
    unfold lift. unfold iobind at 1. destruct data as [|y data].
    { cbn [screen mapM]. unfold iobind at 1. cbn [correction py_min bind]. intros E. apply pair_equal_spec in E. destruct E as [<- <-].
      right. right. right. exists 0%nat, s, [], lo, hi, w. split; [lia|]. split; [constructor|]. split; [exact AC|]. auto. }
    destruct (Req_EM_T lo hi) as [EL|NL].
    { subst hi. rewrite screen_bad. intros E. apply pair_equal_spec in E. destruct E as [<- <-].
      right. right. right. exists 0%nat, s, (y :: data), lo, lo, w. split; [lia|]. split; [constructor|]. split; [exact AC|].
      right. split; [reflexivity|]. split; [discriminate|auto]. }
    rewrite screen_ok by exact NL. unfold iobind at 1.
    destruct (min_max (map (fun y => height lo hi y - 1 / 2) (y :: data)) ltac:(discriminate)) as (A & B & EA & EB & IA & IB & HAB).
    pose proof (placed_none s (y :: data) lo hi A B NL IA IB HAB) as PN.
    destruct (correction_cases n_div p s _ A B EA EB) as [[-> EN]|[(s' & p' & -> & EN)|[-> ES]]].
    + unfold ret. intros E. apply pair_equal_spec in E. destruct E as [<- <-]. left.
      exists 0%nat, (y :: data), lo, hi, w. split; [lia|]. split; [constructor|]. split; [exists s; exact AC|].
      split; [apply PN, EN|]. f_equal. lia.
    + assert (~ well_placed (y :: data) lo hi) as NW by (intros W; apply PN in W; contradiction).
      unfold iobind at 1. destruct (set_scale s' w4) as [[[]|e] w5] eqn:E5.
      2: { intros E. apply pair_equal_spec in E. destruct E as [<- <-]. right. right. left. exists e. split; [reflexivity|].
           exists w4, s', 0%Z. auto 10. }
      unfold iobind at 1. destruct (set_position _ w5) as [[[]|e] w6] eqn:E6.
      2: { intros E. apply pair_equal_spec in E. destruct E as [<- <-]. right. right. left. exists e. split; [reflexivity|].
           eexists w5, _, 0%Z. do 4 right. left. exact E6. }
      assert (forall j w0, tries j w6 w0 -> tries (S j) w w0) as TS.
      { intros j w0 T. econstructor; [exists s; exact AC|exact NW|exact E5|exact E6|exact T]. }
      intros E. destruct (IH w6 r w' E) as [(j & d & l & h & w7 & Lj & T & A7 & W7 & R7)|[(R7 & T)|[F|(j & s7 & d & l & h & w7 & Lj & T & A7 & R7)]]].
      * left. exists (S j), d, l, h, w7. split; [lia|]. split; [auto|]. split; [exact A7|]. split; [exact W7|exact R7].
      * right. left. auto.
      * right. right. left. exact F.
      * right. right. right. exists (S j), s7, d, l, h, w7. split; [lia|]. auto.
    + intros E. apply pair_equal_spec in E. destruct E as [<- <-].
      right. right. right. exists 0%nat, s, (y :: data), lo, hi, w. split; [lia|]. split; [constructor|]. split; [exact AC|].
      right. split; [reflexivity|]. split; [discriminate|auto].
Qed.
End Runs.
