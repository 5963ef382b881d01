(** Properties C03-C10: level crossings, edges, intersections, mask hits. *)
From Coq Require Import List ZArith Bool Lia Sorted QArith Reals Lra SpecFloat.
Import ListNotations.
From Verif Require Import Base Num RBool LinesModel LinesCyModel LinesGeomModel LinesSpec
  LinesProofs LinesRProofs LinesHitsProofs LinesCyProofs LinesGeomProofs.
Local Close Scope Q_scope.
Local Open Scope R_scope.

(** C03: searching backwards from index k finds the nearest pair of samples at
    or before k that straddles the value, and interpolates on it; NaN (None)
    exactly when there is none.  In particular no division by zero. *)
Theorem C03_crossing_backward : forall (ret s : list R) (k : nat) (v : R),
  length ret = length s -> (1 <= k < length s)%nat ->
  (exists j x, crossing ret s (Z.of_nat k) v false 0 = Ok (Some x, Z.of_nat j) /\
     (1 <= j <= k)%nat /\ straddles s v j /\ (forall m, (j < m <= k)%nat -> ~ straddles s v m) /\
     interpolates ret s v j x) \/
  ((forall m, (1 <= m <= k)%nat -> ~ straddles s v m) /\
     crossing ret s (Z.of_nat k) v false 0 = Ok (None, 0%Z)).
Proof. exact crossing_backward_R. Qed.
Print Assumptions C03_crossing_backward.

(** C03: forwards, the nearest straddling pair at or after k. *)
Theorem C03_crossing_forward : forall (ret s : list R) (k : nat) (v : R),
  length ret = length s -> (1 <= k < length s)%nat ->
  (exists j x, crossing ret s (Z.of_nat k) v true 0 = Ok (Some x, Z.of_nat j) /\
     (k <= j < length s)%nat /\ straddles s v j /\ (forall m, (k <= m < j)%nat -> ~ straddles s v m) /\
     interpolates ret s v j x) \/
  ((forall m, (k <= m < length s)%nat -> ~ straddles s v m) /\
     crossing ret s (Z.of_nat k) v true 0 = Ok (None, Z.of_nat (length s))).
Proof. exact crossing_forward_R. Qed.
Print Assumptions C03_crossing_forward.

(** C03: a start index without a left neighbour or past the end gives NaN and
    the index unchanged, for any arithmetic. *)
Theorem C03_crossing_outside : forall (A : Type) (num : Num A) (ret s : list A) (i : Z) (v : A) fwd,
  (i < 1 \/ Z.of_nat (length s) <= i)%Z -> crossing ret s i v fwd 0 = Ok (None, i).
Proof. exact @crossing_outside. Qed.
Print Assumptions C03_crossing_outside.

(** C04: the rising (falling) list has one entry per index where the hysteresis
    specification asks for a rising (falling) edge, in index order; its value is
    the half-level crossing searched backwards from there.  Any arithmetic. *)
Theorem C04_edges_hysteresis : forall (A : Type) (num : Num A) (t y : list A) (y_rise y_half y_fall : A) r f,
  proper_band y y_rise y_fall -> edges t y y_rise y_half y_fall = Ok (r, f) ->
  let value i e := exists j, crossing t y (Z.of_nat i) y_half false 0 = Ok (e, j) in
  listed_at (length y) (rising_at y y_rise y_fall) value r /\
  listed_at (length y) (falling_at y y_rise y_fall) value f.
Proof. exact @edges_spec. Qed.
Print Assumptions C04_edges_hysteresis.

(** C04: between two edges of one kind there is one of the other kind. *)
Theorem C04_edges_alternate : forall (A : Type) (num : Num A) (y : list A) (y_rise y_fall : A) i k,
  proper_band y y_rise y_fall -> (i < k)%nat ->
  (rising_at y y_rise y_fall i -> rising_at y y_rise y_fall k ->
     exists m, (i < m < k)%nat /\ falling_at y y_rise y_fall m) /\
  (falling_at y y_rise y_fall i -> falling_at y y_rise y_fall k ->
     exists m, (i < m < k)%nat /\ rising_at y y_rise y_fall m).
Proof. exact @alternation. Qed.
Print Assumptions C04_edges_alternate.

(** C04: hence the counts differ by at most one; the first edge is rising
    exactly when the record starts below y_fall. *)
Theorem C04_edges_counts : forall (A : Type) (num : Num A) (t y : list A) (y_rise y_half y_fall y0 : A) r f,
  sample y 0 y0 -> edges t y y_rise y_half y_fall = Ok (r, f) ->
  if nlt y0 y_fall then (length f <= length r <= S (length f))%nat
                   else (length r <= length f <= S (length r))%nat.
Proof.
  intros A num t y y_rise y_half y_fall y0 r f H0 He.
  destruct (edges_events t y y_rise y_half y_fall r f y0 H0 He) as (ev & Halt & _ & _ & -> & ->).
  exact (alt_counts ev _ Halt).
Qed.
Print Assumptions C04_edges_counts.

(** C04: over the reals the detector never raises on a nonempty record. *)
Theorem C04_edges_total : forall (t y : list R) (y_rise y_half y_fall : R),
  length t = length y -> y <> [] -> exists r f, edges t y y_rise y_half y_fall = Ok (r, f).
Proof. exact edges_total. Qed.
Print Assumptions C04_edges_total.

(** C05: merging the two lists alternately (rising first iff the record starts
    below y_fall) gives strictly increasing real timestamps.  The only exception
    is a leading NaN, when the record starts in [y_fall, y_half] and drops below
    y_fall without ever exceeding y_half before. *)
Theorem C05_edge_times_increasing : forall (t y : list R) (y_rise y_half y_fall : R),
  length t = length y -> StronglySorted Rlt t -> y_fall <= y_half -> y_half <= y_rise ->
  forall r f y0, sample y 0 y0 -> edges t y y_rise y_half y_fall = Ok (r, f) ->
  let l := if Rltb y0 y_fall then interleave r f else interleave f r in
  (exists xs, l = map Some xs /\ StronglySorted Rlt xs) \/
  (y_fall <= y0 <= y_half /\
   exists i xs, l = None :: map Some xs /\ StronglySorted Rlt xs /\
     (1 <= i)%nat /\ (exists b, sample y i b /\ b < y_fall) /\
     forall k a, (k < i)%nat -> sample y k a -> a <= y_half).
Proof. exact edge_times. Qed.
Print Assumptions C05_edge_times_increasing.

(** C05: with a merely nondecreasing time axis the timestamps are nondecreasing. *)
Theorem C05_edge_times_nondecreasing : forall (t y : list R) (y_rise y_half y_fall : R),
  length t = length y -> StronglySorted Rle t -> y_fall <= y_half -> y_half <= y_rise ->
  forall r f y0, sample y 0 y0 -> edges t y y_rise y_half y_fall = Ok (r, f) ->
  let l := if Rltb y0 y_fall then interleave r f else interleave f r in
  (exists xs, l = map Some xs /\ StronglySorted Rle xs) \/
  (y_fall <= y0 <= y_half /\
   exists i xs, l = None :: map Some xs /\ StronglySorted Rle xs /\
     (1 <= i)%nat /\ (exists b, sample y i b /\ b < y_fall) /\
     forall k a, (k < i)%nat -> sample y k a -> a <= y_half).
Proof. exact edge_times_w. Qed.
Print Assumptions C05_edge_times_nondecreasing.

(** C05 finding: the NaN timestamp is reachable with sane thresholds. *)
Theorem C05_all_times_finite_refuted :
  edges [0; 1; 2; 3]%Q [2 # 10; -1 # 1; 2; -1 # 1]%Q 1%Q (1 # 2)%Q 0%Q =
  Ok ([Some (3 # 2)%Q], [None; Some (5 # 2)%Q]).
Proof. vm_compute. reflexivity. Qed.
Print Assumptions C05_all_times_finite_refuted.

(** C05 finding: the order is a fact about exact arithmetic.  In doubles, with
    the three thresholds equal, a fall that is found before a rise can be timed
    after it (and after the sample that ends its interval): the record falls
    between 0 and 3 and rises between 3 and 4, but the fall is timed above 3
    and the rise at 3. *)
Theorem C05_order_in_doubles_refuted : exists (t y : list f64) (th rise fall : f64),
  t = [f64_ofZ 0; f64_ofZ 3; f64_ofZ 4] /\
  y = [f64_ofZ 94; nsub th (f64_dyadic 1 (-54)); f64_ofZ 1] /\
  nlt (nsub th (f64_dyadic 1 (-54))) th = true /\ nlt th (f64_ofZ 1) = true /\
  edges t y th th th = Ok ([Some rise], [Some fall]) /\
  nlt rise fall = true /\ nlt (f64_ofZ 3) fall = true /\ neq rise (f64_ofZ 3) = true.
Proof.
  exists [f64_ofZ 0; f64_ofZ 3; f64_ofZ 4],
    [f64_ofZ 94; nsub (f64_dyadic 1 (-1)) (f64_dyadic 1 (-54)); f64_ofZ 1],
    (f64_dyadic 1 (-1)), (f64_ofZ 3), (S754_finite false 6755399441055745 (-51)).
  vm_compute. repeat split.
Qed.
Print Assumptions C05_order_in_doubles_refuted.

(** C06: a point is returned iff the lines are not parallel and it lies on both
    segments (segments=True) or both lines (segments=False). *)
Theorem C06_intersection_iff : forall (p q r s : point) (segments : bool) (x : point),
  intersection (fst p) (snd p) (fst q) (snd q) (fst r) (snd r) (fst s) (snd s) segments = Some x <->
  ~ parallel p q r s /\
  if segments then on_segment p q x /\ on_segment r s x else on_line p q x /\ on_line r s x.
Proof. exact intersection_R. Qed.
Print Assumptions C06_intersection_iff.

(** C06: Line2D.intersection, the second implementation, for infinite lines. *)
Theorem C06_line2d_intersection_iff : forall (self l : line2d) (x : point2d),
  line_intersection self l = Some x <->
  ~ parallel (xy (lp self)) (xy (lq self)) (xy (lp l)) (xy (lq l)) /\
  on_line (xy (lp self)) (xy (lq self)) (xy x) /\ on_line (xy (lp l)) (xy (lq l)) (xy x).
Proof. exact line_intersection_iff. Qed.
Print Assumptions C06_line2d_intersection_iff.

(** C06 finding: overlapping collinear segments share points but give None. *)
Theorem C06_shared_point_found_refuted : exists p q r s x : point,
  on_segment p q x /\ on_segment r s x /\
  intersection (fst p) (snd p) (fst q) (snd q) (fst r) (snd r) (fst s) (snd s) true = None.
Proof.
  exists (0, 0), (2, 0), (1, 0), (3, 0), (1, 0). split; [|split].
  - exists (1 / 2). unfold at_param; cbn. lra.
  - exists 0. unfold at_param; cbn. lra.
  - destruct (intersection _ _ _ _ _ _ _ _ true) as [x|] eqn:E; [|reflexivity].
    apply (intersection_R (0, 0) (2, 0) (1, 0) (3, 0) true x) in E. destruct E as [E _].
    exfalso. apply E. unfold parallel; cbn. ring.
Qed.
Print Assumptions C06_shared_point_found_refuted.

(** C07: on a nondecreasing time axis a point is reported iff it is the common
    point of a waveform segment and a (non parallel) path segment. *)
Theorem C07_hits_iff : forall (wave : list point) (paths : list (list point)),
  (forall a b, In (a, b) (adjacent wave) -> fst a <= fst b) -> Forall (fun p => p <> []) paths ->
  exists h, hits (map fst wave) (map snd wave) paths = Ok h /\
  forall x, In x h <->
    exists path a b c d, In path paths /\ In (a, b) (adjacent wave) /\ In (c, d) (adjacent path) /\
      ~ parallel a b c d /\ on_segment a b x /\ on_segment c d x.
Proof.
  intros wave paths Hnd Hne. exists (all_pairs wave paths). split.
  - exact (hits_all_pairs wave paths Hnd Hne).
  - intros x. apply all_pairs_in.
Qed.
Print Assumptions C07_hits_iff.

(** C07: as a list, with order and multiplicity: path by path, waveform segment
    by waveform segment, path segment by path segment. *)
Theorem C07_hits_in_order : forall (wave : list point) (paths : list (list point)),
  (forall a b, In (a, b) (adjacent wave) -> fst a <= fst b) -> Forall (fun p => p <> []) paths ->
  hits (map fst wave) (map snd wave) paths = Ok (
    flat_map (fun path =>
      flat_map (fun ab : point * point =>
        flat_map (fun cd : point * point =>
          let '(a, b) := ab in let '(c, d) := cd in
          match intersection (fst b) (snd b) (fst a) (snd a) (fst d) (snd d) (fst c) (snd c) true with
          | Some x => [x] | None => [] end)
          (adjacent path)) (adjacent wave)) paths).
Proof.
  intros wave paths Hnd Hne. rewrite (hits_all_pairs wave paths Hnd Hne). f_equal.
  unfold all_pairs. apply flat_map_ext. intros path. apply flat_map_ext. intros [a b].
  apply flat_map_ext. intros [c d]. reflexivity.
Qed.
Print Assumptions C07_hits_in_order.

(** C07 finding: with a decreasing time step a real crossing is lost. *)
Theorem C07_hits_unordered_refuted :
  hits [2; 0]%Q [0; 0]%Q [[(1, -1 # 1); (1, 1)]]%Q = Ok [] /\
  (intersection 0 0 2 0 1 1 1 (-1 # 1) true = Some (1, 0))%Q.
Proof. split; vm_compute; reflexivity. Qed.
Print Assumptions C07_hits_unordered_refuted.

(** C08: is_hitting is "hits is nonempty"; when hits raises, is_hitting raises
    the same or had already found a hit.  Any arithmetic, any time axis. *)
Theorem C08_is_hitting_iff_hits : forall (A : Type) (num : Num A) (t y : list A) paths,
  match hits t y paths with
  | Ok h => is_hitting t y paths = Ok (match h with [] => false | _ => true end)
  | Err e => is_hitting t y paths = Err e \/ is_hitting t y paths = Ok true
  end.
Proof. exact @hits_is_hitting. Qed.
Print Assumptions C08_is_hitting_iff_hits.

(** C09: compiled crossing = fallback with the threshold rounded to C float;
    no access leaves its buffer (it would be [Err UndefinedBehaviour]). *)
Theorem C09_crossing_same : forall (A : Type) (num : Num A) (rnd : A -> A) ret s i v fwd,
  length ret = length s -> crossing_cy rnd ret s i v fwd 0 = crossing ret s i (rnd v) fwd 0.
Proof. exact @crossing_cy_agree. Qed.
Print Assumptions C09_crossing_same.

(** C09: compiled edges (list and numpy forms), and the fallback's numpy form. *)
Theorem C09_edges_same : forall (A : Type) (num : Num A) (rnd : A -> A) t y y_rise y_half y_fall,
  length t = length y -> y <> [] ->
  edges_cy rnd t y y_rise y_half y_fall = edges t y (rnd y_rise) (rnd y_half) (rnd y_fall).
Proof. intros. unfold edges_cy. apply edges_c_agree; assumption. Qed.
Print Assumptions C09_edges_same.
Theorem C09_edges_np_same : forall (A : Type) (num : Num A) t y y_rise y_half y_fall,
  length t = length y -> edges_np t y y_rise y_half y_fall = edges t y y_rise y_half y_fall.
Proof. exact @edges_np_agree. Qed.
Print Assumptions C09_edges_np_same.

(** C09: compiled hit searches, for any arithmetic whose [<] is a strict order
    (instances: R, Q and IEEE doubles with NaN). *)
Theorem C09_hits_same : forall (A : Type) (num : Num A) (ord : NumOrd A) t y paths,
  length t = length y -> Forall (fun p => p <> []) paths ->
  hits_c t y paths = hits t y paths /\ hits_np_c t y paths = hits t y paths /\
  is_hitting_c t y paths = is_hitting t y paths.
Proof.
  intros. split; [apply hits_c_agree; assumption|].
  split; [apply hits_np_c_agree; assumption|apply is_hitting_c_agree; assumption].
Qed.
Print Assumptions C09_hits_same.

(** C09: in particular for doubles. *)
Theorem C09_hits_same_doubles : forall (t y : list f64) paths,
  length t = length y -> Forall (fun p => p <> []) paths ->
  hits_c t y paths = hits t y paths /\ hits_np_c t y paths = hits t y paths /\
  is_hitting_c t y paths = is_hitting t y paths.
Proof. intros t y paths. exact (C09_hits_same f64 NumF64 NumOrdF64 t y paths). Qed.
Print Assumptions C09_hits_same_doubles.

(** C09 finding: for ordinary double thresholds the two differ, because the
    compiled signature takes C floats (0.1 is not a single). *)
Theorem C09_double_thresholds_refuted : exists (t y : list f64) (y_rise y_half y_fall : f64),
  edges_cy f32_round t y y_rise y_half y_fall <> edges t y y_rise y_half y_fall.
Proof.
  exists [f64_ofZ 0; f64_ofZ 1], [f64_ofZ (-1); f64_frac 1000000001 10000000000],
    (f64_frac 1 10), (f64_frac 1 20), (f64_ofZ 0).
  vm_compute. discriminate.
Qed.
Print Assumptions C09_double_thresholds_refuted.

(** C09 finding: an empty path reads outside its buffer in the compiled code
    where the fallback raises ValueError. *)
Theorem C09_empty_path_refuted : forall (A : Type) (num : Num A) (t y : list A),
  hits_c t y [[]] = Err UndefinedBehaviour /\ hits t y [[]] = Err ValueError.
Proof. intros. split; reflexivity. Qed.
Print Assumptions C09_empty_path_refuted.

(** C10: the orientation is the sign of the cross product up to the tolerance. *)
Theorem C10_orientation_sign : forall tol p q r, 0 < tol -> resolved tol p q r ->
  orientation tol p q r =
  Ok (sign ((py q - py p) * (px r - px q) - (px q - px p) * (py r - py q))).
Proof. exact orientation_resolved. Qed.
Print Assumptions C10_orientation_sign.

(** C10: swapping the outer points negates it, tolerance included. *)
Theorem C10_orientation_antisymmetric : forall tol p q r o,
  orientation tol p q r = Ok o -> orientation tol r q p = Ok (- o)%Z.
Proof. exact orientation_swap. Qed.
Print Assumptions C10_orientation_antisymmetric.

(** C10: true iff the closed segments share a point, degenerate and collinear
    cases included, for points away from the origin that the tolerance does
    not blur ([resolved]). *)
Theorem C10_intersecting_iff : forall tol self p q, 0 < tol ->
  resolved tol (lp self) (lq self) p -> resolved tol (lp self) (lq self) q ->
  resolved tol p q (lp self) -> resolved tol p q (lq self) ->
  exists b, intersecting_points tol self p q = Ok b /\
    (b = true <-> exists x, on_segment (xy (lp self)) (xy (lq self)) x /\ on_segment (xy p) (xy q) x).
Proof. exact intersecting_iff. Qed.
Print Assumptions C10_intersecting_iff.

(** C10 finding: a segment ending at the origin raises. *)
Theorem C10_origin_raises_refuted : forall tol self p q,
  px (lp self) = 0 /\ py (lp self) = 0 \/ px (lq self) = 0 /\ py (lq self) = 0 \/
  px p = 0 /\ py p = 0 \/ px q = 0 /\ py q = 0 ->
  intersecting_points tol self p q = Err ZeroDivisionError.
Proof. exact intersecting_origin. Qed.
Print Assumptions C10_origin_raises_refuted.

(** C10 finding: without [resolved] the test can deny a real crossing (the
    tolerance is that of the code, 10 * 2^-52). *)
Theorem C10_small_segments_refuted : exists self p q,
  intersecting_points (10 / 2 ^ 52) self p q = Ok false /\
  exists x, on_segment (xy (lp self)) (xy (lq self)) x /\ on_segment (xy p) (xy q) x.
Proof.
  do 3 eexists. destruct tolerance_witness as (H1 & H2 & H3). split; [exact H1|].
  exists (2, 2). split; [exact H2|exact H3].
Qed.
Print Assumptions C10_small_segments_refuted.

(** *** Concrete, non-trivial instances of the hypotheses *)
Example crossing_example :
  crossing [0; 10; 20; 30]%Q [0; 4; 2; 8]%Q 3 3%Q false 0 = Ok (Some (65 # 3)%Q, 3%Z) /\
  crossing [0; 10; 20; 30]%Q [0; 4; 2; 8]%Q 2 3%Q false 0 = Ok (Some (15 # 1)%Q, 2%Z) /\
  crossing [0; 10; 20; 30]%Q [0; 4; 2; 8]%Q 1 9%Q true 0 = Ok (None, 4%Z).
Proof. repeat split; vm_compute; reflexivity. Qed.

Example edges_example :
  edges [0; 1; 2; 3; 4]%Q [0; 4; 1; 4; 0]%Q 3%Q 2%Q 1%Q = Ok ([Some (1 # 2)%Q], [Some (7 # 2)%Q]).
Proof. vm_compute. reflexivity. Qed.

Example band_example : proper_band [0; 4; 1; 4; 0]%R 3 1.
Proof. intros a _ H1 H2. cbn in H1, H2. rewrite Rltb_true in H1, H2. lra. Qed.

Example times_hypotheses : StronglySorted Rlt [0; 1; 2] /\ StronglySorted Rle [0; 1; 1].
Proof. split; repeat constructor; lra. Qed.

Example hits_example :
  hits [0; 1; 2]%Q [0; 2; 0]%Q [[(0, 1); (2, 1)]]%Q = Ok [(1 # 2, 1); (3 # 2, 1)]%Q.
Proof. vm_compute. reflexivity. Qed.

Example hits_hypotheses :
  (forall a b : point, In (a, b) (adjacent [(0, 0); (1, 2); (1, 0)]) -> fst a <= fst b) /\
  Forall (fun p : list point => p <> []) [[(0, 1); (2, 1)]].
Proof.
  split.
  - intros a b [E|[E|[]]]; injection E as <- <-; cbn; lra.
  - constructor; [discriminate|constructor].
Qed.

Example resolved_example : resolved (10 / 2 ^ 52) (Point2D 1 0) (Point2D 1 1) (Point2D 0 1).
Proof.
  unfold resolved, origin; cbn. repeat split; try lra. right.
  assert (E : norm_cubed (Point2D 1 0) (Point2D 1 1) (Point2D 0 1) = 2) by (unfold norm_cubed; cbn; ring).
  rewrite E. pose proof (cube_root_pos 2 ltac:(lra)) as Hp. pose proof (cube_root_cube 2 ltac:(lra)) as Hc.
  assert (cube_root 2 < 2).
  { destruct (Rlt_le_dec (cube_root 2) 2) as [|Hge]; [assumption|]. exfalso.
    set (c := cube_root 2) in * . clearbody c. replace (c ^ 3) with (c * c * c) in Hc by ring.
    assert (4 <= c * c) by nra. nra. }
  unfold turn; cbn. rewrite Rabs_left by lra. lra.
Qed.
