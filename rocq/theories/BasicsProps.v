(** More on C02 and C05: every drawing that completes, and where edges lie. *)
From Coq Require Import List ZArith Bool Reals Lia Lra Sorted.
Import ListNotations.
From Verif Require Import Base Num RBool DrawModel DrawSpec DrawProofs DrawProps LinesModel LinesSpec LinesProofs LinesProps.

Local Open Scope Z_scope.
Lemma loop_enough fuel : forall ps p g r, draw_loop fuel p ps g = Ok r -> enough fuel p ps.
Proof.
  induction ps as [|q ps IH]; intros p g r E; [exact I|]. destruct p as [x1 y1], q as [x2 y2]. cbn [draw_loop fst snd] in E.
  destruct (segment_exact_steps x1 y1 x2 y2 fuel g) as (_ & OOF). cbn [enough]. destruct (Z_lt_le_dec (steps (x1, y1) (x2, y2)) (Z.of_nat fuel)) as [L|L]; [|rewrite (OOF L) in E; discriminate].
  split; [exact L|]. destruct (draw_segment fuel x1 y1 x2 y2 g) as [g1|]; [|discriminate]. exact (IH _ _ _ E).
Qed.
(** C02: a drawing has one chain of pixels, the rastered polyline; whenever it
    completes, on any grid, each inside cell has gained its number of visits and
    nothing else has changed. *)
Theorem C02_draw : forall ps, exists pts, forall fuel g g', draw fuel ps g = Ok g' ->
  raster_polyline ps pts /\ n_x g' = n_x g /\ n_y g' = n_y g /\ adds_visits (n_x g) (n_y g) (cell g) (cell g') pts.
Proof.
  intros [|p [|q ps]]; [exists []; intros; discriminate..|]. destruct (draw_spec p q ps) as (pts & RP & D). exists pts. intros fuel g g' E. split; [exact RP|].
  assert (EN : enough fuel p (q :: ps)). { unfold draw in E. cbn [tl] in E. destruct (draw_loop fuel p (q :: ps) g) as [r|] eqn:L; [|discriminate]. exact (loop_enough _ _ _ _ _ L). }
  assert (g' = plots pts g) as -> by (apply (f_equal (fun r => match r with Ok x => x | Err _ => g end)) in E; rewrite <- E; exact (f_equal (fun r => match r with Ok x => x | Err _ => g end) (D fuel g EN))). apply plots_adds.
Qed.
Print Assumptions C02_draw.
Example C02_draw_met : exists g', draw 10 [(-1, 0); (4, 2); (2, 2)] grid0 = Ok g' /\ cell g' 3 2 = 2 /\ cell g' 0 1 = 0.
Proof. eexists. split; [vm_compute; reflexivity|]. split; vm_compute; reflexivity. Qed.

Local Open Scope R_scope.
(** C05: the timestamp of a rising (falling) edge reported at sample [i] is the
    interpolated crossing between the last sample not above (above) y_half and
    its successor.  Only a falling edge before which nothing exceeded y_half has
    none. *)
Definition rising_time (t y : list R) (y_half : R) (i : nat) (e : option R) : Prop :=
  exists x j a b, e = Some x /\ (1 <= j <= i)%nat /\ sample y (j - 1) a /\ sample y j b /\ a <= y_half < b
    /\ (forall m c, (j <= m <= i)%nat -> sample y m c -> y_half < c) /\ interpolates t y y_half j x.
Definition falling_time (t y : list R) (y_half : R) (i : nat) (e : option R) : Prop :=
  (exists x j a b, e = Some x /\ (1 <= j <= i)%nat /\ sample y (j - 1) a /\ sample y j b /\ b <= y_half < a
    /\ (forall m c, (j <= m <= i)%nat -> sample y m c -> c <= y_half) /\ interpolates t y y_half j x)
  \/ (e = None /\ forall m c, (m <= i)%nat -> sample y m c -> c <= y_half).
Lemma same_side (y : list R) v j : forall d, (j + d < length y)%nat -> (forall m, (j < m <= j + d)%nat -> ~ straddles y v m) ->
  forall a c, sample y j a -> sample y (j + d) c -> (v < a <-> v < c).
Proof.
  induction d as [|d IH]; intros L NS a c A C; [rewrite Nat.add_0_r in C; rewrite (sample_fun _ _ _ _ A C); tauto|].
  destruct (sample_ex y (j + d)) as (b & B); [lia|]. rewrite (IH ltac:(lia) ltac:(intros m M; apply NS; lia) a b A B). specialize (NS (j + S d)%nat ltac:(lia)).
  destruct (Rlt_dec v b) as [VB|VB]; destruct (Rlt_dec v c) as [VC|VC]; try tauto; exfalso; apply NS; (split; [lia|]); exists b, c; replace (j + S d - 1)%nat with (j + d)%nat by lia; (split; [exact B|]); (split; [exact C|]); lra.
Qed.
Theorem C05_edge_times_between : forall (t y : list R) (y_rise y_half y_fall : R) r f,
  length t = length y -> y_fall <= y_half -> y_half <= y_rise -> edges t y y_rise y_half y_fall = Ok (r, f) ->
  listed_at (length y) (rising_at y y_rise y_fall) (rising_time t y y_half) r /\
  listed_at (length y) (falling_at y y_rise y_fall) (falling_time t y y_half) f.
Proof.
  intros t y y_rise y_half y_fall r f LE FH HR E.
  assert (PB : proper_band y y_rise y_fall) by (intros a _ A B; apply Rltb_true in A, B; lra).
  destruct (C04_edges_hysteresis R _ t y y_rise y_half y_fall r f PB E) as ((ir & SR & IR & VR) & (jf & SF & JF & VF)).
  assert (W : forall (P : nat -> Prop) (val : nat -> option R -> Prop) idx (l : list (option R)), (forall i e, (i < length y)%nat -> P i -> (exists j, crossing t y (Z.of_nat i) y_half false 0 = Ok (e, j)) -> val i e) ->
    (forall i, In i idx -> (i < length y)%nat /\ P i) -> Forall2 (fun i e => exists j, crossing t y (Z.of_nat i) y_half false 0 = Ok (e, j)) idx l -> Forall2 val idx l).
  { intros P val idx l H IN F. induction F as [|i e idx l C F IH]; constructor; [|apply IH; intros k K; apply IN; right; exact K]. destruct (IN i (or_introl eq_refl)) as (A & B). apply H; assumption. }
  split; [exists ir|exists jf].
  - split; [exact SR|]. split; [exact IR|]. apply (W (rising_at y y_rise y_fall)); [|intros i I; apply IR; exact I|exact VR].
    intros i e IL (I1 & (k & b & KI & KB & KF & KH) & v & V & VH) (j' & C). apply Rltb_true in KF, VH.
    destruct (C03_crossing_backward t y i y_half LE (conj I1 IL)) as [(j & x & C' & J & ST & NS & IN)|(NS & _)].
    + assert (e = Some x) as -> by congruence. destruct ST as (J1 & a & b' & A & B & AB). exists x, j, a, b'. split; [reflexivity|]. split; [exact J|]. split; [exact A|]. split; [exact B|].
      assert (HI : forall m c, (j <= m <= i)%nat -> sample y m c -> y_half < c).
      { intros m c M SC. apply (same_side y y_half m (i - m)) with (a := c) (c := v); [lia|intros q Q; apply NS; lia|exact SC|replace (m + (i - m))%nat with i by lia; exact V|lra]. }
      pose proof (HI j b' ltac:(lia) B). split; [lra|]. split; [exact HI|exact IN].
    + exfalso. assert (LK : (k + (i - k) < length y)%nat) by lia. assert (y_half < b); [|lra]. apply (same_side y y_half k (i - k) LK) with (c := v); [intros q Q; apply NS; lia|exact KB|replace (k + (i - k))%nat with i by lia; exact V|lra].
  - split; [exact SF|]. split; [exact JF|]. apply (W (falling_at y y_rise y_fall)); [|intros i I; apply JF; exact I|exact VF].
    intros i e IL (I1 & NL & v & V & VH) (j' & C). apply Rltb_true in VH.
    destruct (C03_crossing_backward t y i y_half LE (conj I1 IL)) as [(j & x & C' & J & ST & NS & IN)|(NS & C')].
    + assert (e = Some x) as -> by congruence. left. destruct ST as (J1 & a & b' & A & B & AB). exists x, j, a, b'. split; [reflexivity|]. split; [exact J|]. split; [exact A|]. split; [exact B|].
      assert (HI : forall m c, (j <= m <= i)%nat -> sample y m c -> c <= y_half).
      { intros m c M SC. apply Rnot_lt_le. intros Q. assert (y_half < v); [|lra]. apply (same_side y y_half m (i - m)) with (a := c) (c := v); [lia|intros z Z; apply NS; lia|exact SC|replace (m + (i - m))%nat with i by lia; exact V|exact Q]. }
      pose proof (HI j b' ltac:(lia) B). split; [lra|]. split; [exact HI|exact IN].
    + assert (e = None) as -> by congruence. right. split; [reflexivity|]. intros m c M SC. apply Rnot_lt_le. intros Q. assert (y_half < v); [|lra].
      apply (same_side y y_half m (i - m)) with (a := c) (c := v); [lia|intros z Z; apply NS; lia|exact SC|replace (m + (i - m))%nat with i by lia; exact V|exact Q].
Qed.
Print Assumptions C05_edge_times_between.
(** The record 0 2 0 rises at sample 1 and falls at sample 2. *)
Example C05_between_met : (exists r f, edges [0; 1; 2] [0; 2; 0] (3 / 2) 1 (1 / 2) = Ok (r, f)) /\
  rising_at [0; 2; 0] (3 / 2) (1 / 2) 1 /\ falling_at [0; 2; 0] (3 / 2) (1 / 2) 2.
Proof.
  split; [apply C04_edges_total; [reflexivity|discriminate]|]. split; (split; [lia|]).
  - split; [|exists 2; split; [reflexivity|apply Rltb_true; lra]]. exists 0%nat, 0. split; [lia|]. split; [reflexivity|]. split; [apply Rltb_true; lra|]. intros k b K. lia.
  - split; [|exists 0; split; [reflexivity|apply Rltb_true; lra]]. intros (j & a & J & A & L & N). cbn in J. apply Rltb_true in L. destruct j as [|[|j]]; [|cbn in A; injection A as <-; lra|lia].
    specialize (N 1%nat 2 ltac:(lia) eq_refl). assert (H : Rltb (3 / 2) 2 = true) by (apply Rltb_true; lra). change (Rltb (3 / 2) 2 = false) in N. congruence.
Qed.
