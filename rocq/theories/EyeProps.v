(** Properties of the eye diagram's symbol windows, mask margin search, guide
    lines, bathtub curves and heat map (C37, C38, C39, C48, C49, C50). *)
From Coq Require Import List ZArith Bool QArith Reals Lra Lia Sorted Permutation.
Import ListNotations.
From Verif Require Import Base Num RBool DrawModel DrawSpec LinesModel LinesSpec LinesCyModel LinesCyProofs LinesHitsProofs
  StatsModel MaskModel MaskProofs EyeModel EyeSpec EyeProofs EyeRProofs.
Local Open Scope R_scope.

(** ** C38: symbol windows never leave the record *)

(** For every arithmetic (exact or rounded), rounding to int and modulus: every
    symbol kept has its window of i_width samples to each side inside the
    record, and the symbols are, in order, those clock edges whose window fits. *)
Theorem C38_windows_inside {A} `{Num A} trunc pymod (t_sym t_delta t_zero : A) max_i edges syms w :
  step3_sample trunc pymod t_sym t_delta t_zero max_i edges = Ok syms ->
  get_i_width trunc t_sym t_delta = Ok w ->
  (forall s, In s syms -> 0 <= snd s - w /\ snd s + w < max_i)%Z /\
  exists idx, syms = map (fun b => (neg (pymod b t_delta), idx b)) (filter (fun b => fits w max_i (idx b)) edges).
Proof.
  intros E Ew. split; [exact (step3_inside _ _ _ _ _ _ _ _ _ E Ew)|].
  destruct (step3_filter _ _ _ _ _ _ _ _ _ E Ew) as (idx & _ & ->). exists idx. reflexivity.
Qed.
Print Assumptions C38_windows_inside.

(** Hence both implementations read the same 2 w + 1 samples, none of them out of
    bounds (an unchecked read outside is [Err UndefinedBehaviour]). *)
Theorem C38_reads_inside {A} `{Num A} trunc pymod (t_sym t_delta t_zero : A) (y : list A) edges syms w t0 s :
  step3_sample trunc pymod t_sym t_delta t_zero (Z.of_nat (length y)) edges = Ok syms ->
  get_i_width trunc t_sym t_delta = Ok w -> window_axis w t_sym t_delta = Ok t0 -> In s syms ->
  exists t v, window_c t0 y w t_sym s = Ok (t, v) /\ window_fb t0 y w t_sym s = (t, v) /\
    length t = Z.to_nat (2 * w + 1) /\ length v = Z.to_nat (2 * w + 1) /\
    (forall k, (k < length v)%nat -> nth_error v k = nth_error y (Z.to_nat (snd s - w) + k)) /\
    (Z.to_nat (snd s - w) + length v <= length y)%nat.
Proof.
  intros E Ew Et Hs. pose proof (step3_inside _ _ _ _ _ _ _ _ _ E Ew s Hs) as Hin.
  destruct (window_axis_length _ _ _ _ Et) as [H0 Hl].
  destruct (window_agree t0 y w t_sym s H0 Hl Hin) as (E1 & L1 & L2 & Hn).
  destruct (window_fb t0 y w t_sym s) as [t v]. cbn [fst snd] in * . exists t, v.
  replace (2 * w + 1)%Z with (w * 2 + 1)%Z by lia. rewrite <- Hl.
  split; [exact E1|]. split; [reflexivity|]. split; [exact L1|]. split; [exact L2|]. split.
  - intros k Hk. apply Hn. congruence.
  - lia.
Qed.
Print Assumptions C38_reads_inside.

(** The compiled mask sampling and slicing agree with the fallback on them. *)
Theorem C38_compiled_agrees {A} `{NumOrd A} trunc pymod (t_sym t_delta t_zero y_zero y_ua : A) (y : list A) edges syms masks mgs levels :
  step3_sample trunc pymod t_sym t_delta t_zero (Z.of_nat (length y)) edges = Ok syms ->
  length masks = length mgs -> mgs <> [] -> Forall (Forall (fun p : path => p <> [])) masks ->
  sample_mask_c trunc y syms t_delta t_sym y_zero y_ua masks mgs =
    sample_mask trunc y syms t_delta t_sym y_zero y_ua masks mgs /\
  y_slice_c trunc y syms t_delta t_sym y_zero y_ua levels = y_slice trunc y syms t_delta t_sym y_zero y_ua levels.
Proof.
  intros E Hl Hne Hp. split; [apply sample_mask_c_agree; [assumption..|]|apply y_slice_c_agree];
    intros w s Ew Hs; exact (step3_inside _ _ _ _ _ _ _ _ _ E Ew s Hs).
Qed.
Print Assumptions C38_compiled_agrees.

(** Likewise stacking (over the reals: the compiled code rounds differently). *)
Theorem C38_compiled_stack_agrees cast (t_sym t_delta t_zero min_y max_y : R) (y : list R) edges syms res g fuel pc :
  0 < t_sym -> 0 < t_delta ->
  step3_sample int_of_float float_mod t_sym t_delta t_zero (Z.of_nat (length y)) edges = Ok syms ->
  stack_c int_of_float cast fuel y syms t_delta t_sym min_y max_y res g pc =
  stack int_of_float cast fuel y syms t_delta t_sym min_y max_y res g pc.
Proof.
  intros Hs Hd E. destruct (get_i_width int_of_float t_sym t_delta) as [w|] eqn:Ew; [|discriminate].
  destruct (i_width_R _ _ _ Hs Hd Ew) as (Hw & _).
  destruct (window_axis w t_sym t_delta) as [t0|] eqn:Et.
  - apply (stack_c_agree cast y t_delta t_sym min_y max_y res w t0 Hs Ew Et).
    intros s Hin. exact (step3_inside _ _ _ _ _ _ _ _ _ E Ew s Hin).
  - unfold window_axis in Et. cbv zeta in Et. destruct (Z.ltb_spec (w * 2 + 1) 0); [lia|discriminate].
Qed.
Print Assumptions C38_compiled_stack_agrees.

(** Rational arithmetic for witnesses. *)
Definition truncQ (x : Q) : result Z := Ok (Z.quot (Qnum x) (Zpos (Qden x))).
Definition modQ (x d : Q) : Q := Qred (x - d * inject_Z (Z.div (Qnum (x / d)) (Zpos (Qden (x / d))))).

(** A record of 40 samples at 1/4 of a unit, symbols of 1: the first and last
    edges are dropped, the others are kept in order. *)
Example C38_witness :
  step3_sample truncQ modQ 1%Q (1#4)%Q 0%Q 40 [(1#2)%Q; (13#8)%Q; (21#8)%Q; (29#8)%Q; 9%Q] =
    Ok [((-1#8)%Q, 6%Z); ((-1#8)%Q, 10%Z); ((-1#8)%Q, 14%Z)] /\
  get_i_width truncQ 1%Q (1#4)%Q = Ok 6%Z.
Proof. vm_compute. split; reflexivity. Qed.

(** ** C39: symbol alignment *)

(** Sample index and offset of each symbol give back a clock edge: within half
    of a sample period in general, exactly if the record starts at a multiple of
    the sample period. *)
Theorem C39_aligned (t_sym t_delta t_zero : R) max_i edges syms s : 0 < t_sym -> 0 < t_delta ->
  step3_sample int_of_float float_mod t_sym t_delta t_zero max_i edges = Ok syms -> In s syms ->
  exists b, In b edges /\
    Rabs (t_zero + IZR (snd s) * t_delta - fst s - b) <= t_delta / 2 /\
    ((exists k, t_zero = IZR k * t_delta) -> t_zero + IZR (snd s) * t_delta - fst s = b).
Proof.
  intros Hs Hd E Hin. destruct (step3_aligned _ _ _ _ _ _ _ Hs Hd E Hin) as (b & Hb & _ & H1 & H2).
  exists b. split; [exact Hb|]. split; assumption.
Qed.
Print Assumptions C39_aligned.

(** Then sample k of the window is displayed at its true distance from the clock
    edge, in unit intervals, with the edge at 1/2. *)
Theorem C39_window_time (t_sym t_delta t_zero : R) (y : list R) edges syms s w t0 : 0 < t_sym -> 0 < t_delta ->
  (exists k, t_zero = IZR k * t_delta) ->
  step3_sample int_of_float float_mod t_sym t_delta t_zero (Z.of_nat (length y)) edges = Ok syms -> In s syms ->
  get_i_width int_of_float t_sym t_delta = Ok w -> window_axis w t_sym t_delta = Ok t0 ->
  exists b, In b edges /\ forall k, (k < length t0)%nat ->
    nth_error (fst (window_fb t0 y w t_sym s)) k =
      Some (1/2 + (t_zero + IZR (snd s - w + Z.of_nat k) * t_delta - b) / t_sym) /\
    nth_error (snd (window_fb t0 y w t_sym s)) k = nth_error y (Z.to_nat (snd s - w + Z.of_nat k)).
Proof.
  intros Hs Hd Hz E Hin Ew Et. destruct (C39_aligned _ _ _ _ _ _ _ Hs Hd E Hin) as (b & Hb & _ & H2).
  destruct (i_width_R _ _ _ Hs Hd Ew) as (Hw & _).
  pose proof (step3_inside _ _ _ _ _ _ _ _ _ E Ew s Hin) as Hfit.
  destruct (window_axis_length _ _ _ _ Et) as [H0 Hl].
  destruct (window_agree t0 y w t_sym s H0 Hl Hfit) as (_ & _ & _ & Hn).
  exists b. split; [exact Hb|]. intros k Hk. split.
  - apply (window_time w t_sym t_delta t_zero b); try assumption; [lia|lra|apply H2; exact Hz].
  - rewrite Hn by exact Hk. f_equal. lia.
Qed.
Print Assumptions C39_window_time.

(** The windows reach at least one and a half sample periods beyond the unit
    interval on each side of the edge. *)
Theorem C39_window_width (t_sym t_delta : R) w : 0 < t_sym -> 0 < t_delta ->
  get_i_width int_of_float t_sym t_delta = Ok w ->
  t_sym + 3/2 * t_delta < IZR w * t_delta <= t_sym + 5/2 * t_delta.
Proof.
  intros Hs Hd Ew. destruct (i_width_R _ _ _ Hs Hd Ew) as (_ & H1 & H2).
  assert (E : t_sym / t_delta * t_delta = t_sym) by (field; lra).
  split.
  - apply Rmult_lt_compat_r with (r := t_delta) in H2; [|exact Hd]. nra.
  - apply Rmult_le_compat_r with (r := t_delta) in H1; [|lra]. nra.
Qed.
Print Assumptions C39_window_width.

(** In general the error is not zero: sample times 1/2, 3/2, 5/2, ... and a
    clock edge at 21/4 give index 5 (time 11/2) and offset -1/4, i.e. an edge at
    23/4.  (Computed by the model over the rationals.) *)
Example C39_exact_refuted :
  step3_sample truncQ modQ 1%Q 1%Q (1#2)%Q 100 [(21#4)%Q] = Ok [((-1#4)%Q, 5%Z)] /\
  ~ ((1#2) + 5 * 1 - (-1#4) == 21#4)%Q.
Proof. split; [vm_compute; reflexivity|]. intros Q. vm_compute in Q. discriminate. Qed.

(** ** C37: mask margin search *)

(** For every arithmetic: the margin returned is the first of the margins whose
    mask no window touches, or the last one; the offenders are exactly the
    windows touching the middle mask, with all their hits. *)
Theorem C37_margin_search {A} `{Num A} trunc waveform_y symbols (t_delta t_sym y_zero y_ua : A) masks mgs w t0 :
  get_i_width trunc t_sym t_delta = Ok w -> window_axis w t_sym t_delta = Ok t0 ->
  length masks = length mgs -> mgs <> [] ->
  let ws := windows t0 waveform_y w t_sym y_zero y_ua symbols in
  (forall v m, In v ws -> In m masks -> testable v m) ->
  (forall v, In v ws -> monotone v masks) ->
  exists r k, sample_mask trunc waveform_y symbols t_delta t_sym y_zero y_ua masks mgs = Ok r /\
    nth_error mgs k = Some (margin r) /\
    (forall j, (j < k)%nat -> violated ws masks j) /\
    (untouched ws masks k \/ S k = length mgs /\ violated ws masks k) /\
    exactly (fun i => exists v m, nth_error ws i = Some v /\ nth_error masks (length mgs / 2) = Some m /\ touches v m)
            (offenders r) /\
    (exists hl, Forall2 (fun v h => exists m, nth_error masks (length mgs / 2) = Some m /\
                                   hits (fst v) (snd v) m = Ok h) ws hl /\
                mask_hits r = concat hl).
Proof. exact (sample_mask_spec trunc waveform_y symbols t_delta t_sym y_zero y_ua masks mgs w t0). Qed.
Print Assumptions C37_margin_search.

(** Touching, for a window inside the record, over the reals: some segment of the
    waveform and some segment of the outline, not parallel, share a point. *)
Theorem C37_touching (t_sym t_delta : R) w t0 (y : list R) s (m : list path) : 0 < t_sym -> 0 < t_delta ->
  get_i_width int_of_float t_sym t_delta = Ok w -> window_axis w t_sym t_delta = Ok t0 ->
  (0 <= snd s - w /\ snd s + w < Z.of_nat (length y))%Z -> Forall (fun p => p <> []) m ->
  let v := window_fb t0 y w t_sym s in
  touches v m <-> exists path a b c d p, In path m /\ In (a, b) (adjacent (points v)) /\ In (c, d) (adjacent path) /\
    ~ parallel a b c d /\ on_segment a b p /\ on_segment c d p.
Proof.
  intros Hs Hd Ew Et Hfit Hp v. destruct (i_width_R _ _ _ Hs Hd Ew) as (Hw & _).
  pose proof (window_hits w t_sym t_delta t0 y s m ltac:(lia) Hs Hd Et Hfit Hp) as E. cbv zeta in E. fold v in E.
  unfold touches. rewrite E. split.
  - intros (h & Eh & Hne). injection Eh as <-. destruct (all_pairs (points v) m) as [|p l] eqn:El; [contradiction|].
    assert (Hin : In p (all_pairs (points v) m)) by (rewrite El; left; reflexivity).
    apply all_pairs_in in Hin. destruct Hin as (path & a & b & c & d & H1 & H2 & H3 & H4 & H5 & H6).
    exists path, a, b, c, d, p. tauto.
  - intros (path & a & b & c & d & p & H1 & H2 & H3 & H4 & H5 & H6). eexists. split; [reflexivity|].
    assert (Hin : In p (all_pairs (points v) m)) by (apply all_pairs_in; exists path, a, b, c, d; tauto).
    intros Q. rewrite Q in Hin. destruct Hin.
Qed.
Print Assumptions C37_touching.

Lemma adjusted_nonempty (m : mask R) f p : mask_adjusted m f = Ok p -> Forall (fun x => x <> []) p.
Proof.
  intros E. destruct m as [m|m]; cbn [mask_adjusted] in E; unbind E;
    unfold hex_get_paths, dec_get_paths, get_paths in E;
    match type of E with (if ?c then _ else _) = _ => destruct c; [|discriminate] end;
    injection E as <-; repeat constructor; discriminate.
Qed.
Lemma mapM_in {X Y} (f : X -> result Y) l : forall l' y, mapM f l = Ok l' -> In y l' -> exists x, In x l /\ f x = Ok y.
Proof.
  induction l as [|x l IH]; intros l' y E Hy; cbn [mapM] in E.
  - injection E as <-. destruct Hy.
  - unbind E. injection E as <-. destruct Hy as [<-|Hy]; [eexists; split; [left; reflexivity|eassumption]|].
    destruct (IH _ _ ltac:(first [reflexivity|eassumption]) Hy) as (x' & Hx & Ex). exists x'. split; [right|]; assumption.
Qed.

(** The whole eye diagram: margins 1, 0.999, ..., -1 of a real mask and any
    number of waveforms. *)
Theorem C37_eye_margin (m mc : mask R) paths (t_delta t_sym y_zero y_ua : R) waves w t0 : 0 < t_sym -> 0 < t_delta ->
  mask_convert m y_ua t_sym = Ok mc -> mapM (mask_adjusted mc) margins = Ok paths ->
  get_i_width int_of_float t_sym t_delta = Ok w -> window_axis w t_sym t_delta = Ok t0 ->
  (forall wv s, In wv waves -> In s (snd wv) -> 0 <= snd s - w /\ snd s + w < Z.of_nat (length (fst wv)))%Z ->
  let win := fun wv : list R * list (@symbol R) => windows t0 (fst wv) w t_sym y_zero y_ua (snd wv) in
  (forall v, In v (flat_map win waves) -> monotone v paths) ->
  exists offs hs mg cnt k,
    eye_sample_mask int_of_float (Some m) t_delta t_sym y_zero y_ua waves = Ok (offs, hs, mg, cnt) /\
    (k <= 2000)%nat /\ mg = IZR (1000 - Z.of_nat k) / 1000 /\
    (forall j, (j < k)%nat -> violated (flat_map win waves) paths j) /\
    (untouched (flat_map win waves) paths k \/ k = 2000%nat /\ violated (flat_map win waves) paths k) /\
    Forall2 (fun wv => exactly (fun i => exists v p, nth_error (win wv) i = Some v /\
                                   nth_error paths 1000 = Some p /\ touches v p)) waves offs /\
    cnt = length (concat offs) /\
    (exists hl, Forall2 (fun v h => exists p, nth_error paths 1000 = Some p /\ hits (fst v) (snd v) p = Ok h)
                  (flat_map win waves) hl /\ hs = concat hl).
Proof.
  intros Hs Hd Ec Ep Ew Et Hfit win Hm.
  apply (eye_margin_spec int_of_float m mc paths t_delta t_sym y_zero y_ua waves w t0 Ec Ep Ew Et); [|exact Hm].
  intros v p Hv Hp. apply in_flat_map in Hv. destruct Hv as (wv & Hwv & Hv). unfold win, windows in Hv.
  apply in_map_iff in Hv. destruct Hv as (s & <- & Hin). destruct (i_width_R _ _ _ Hs Hd Ew) as (Hw & _).
  destruct (mapM_in _ _ _ _ Ep Hp) as (f & _ & Ef).
  eexists. apply (window_hits w t_sym t_delta); try assumption; [lia| |exact (adjusted_nonempty _ _ _ Ef)].
  rewrite normalise_length. apply Hfit; assumption.
Qed.
Print Assumptions C37_eye_margin.

(** Witness: a clean eye over the rationals (levels 0 and 1) has margin 0.499 for
    this mask; the nested masks it is tested against are touched monotonically. *)
Definition hexQ : mask Q := MHexagon (new_hexagon (Plain (1#4)%Q) (Plain (3#8)%Q) (Plain (1#4)%Q) (Plain (1#4)%Q) (Plain (1#4)%Q) true).
Definition flat (n : nat) (v : Q) : list Q := repeat v n.
Example C37_witness :
  match eye_sample_mask truncQ (Some hexQ) (1#2)%Q 2%Q 0%Q 1%Q [(flat 6 0 ++ [1#8] ++ flat 6 0, [(0%Q, 6%Z)])%Q] with
  | Ok (offs, hs, mg, cnt) => offs = [[]] /\ hs = [] /\ (mg == 499#1000)%Q /\ cnt = O
  | Err _ => False
  end.
Proof. vm_compute. repeat split; reflexivity. Qed.

(** Without monotonicity symbols are missed.  The waveform is at 3 UA, above the
    mask's upper limit region, which is open at 2 UA, and dips to 1.2 UA, which
    the unadjusted mask (limit 1.25 UA) forbids.  The largest mask (limit 1 UA) is
    not touched, so a full margin and no offender are reported. *)
Example C37_offender_missed_refuted :
  let y := (flat 6 3 ++ [6#5] ++ flat 6 3)%Q in
  let zero_mask := match mask_convert hexQ 1%Q 2%Q with Ok m => mask_adjusted m 0%Q | Err e => Err e end in
  match eye_sample_mask truncQ (Some hexQ) (1#2)%Q 2%Q 0%Q 1%Q [(y, [(0%Q, 6%Z)])],
        window_axis 6 2%Q (1#2)%Q, zero_mask with
  | Ok (offs, hs, mg, cnt), Ok t0, Ok m0 =>
      offs = [[]] /\ hs = [] /\ mg = 1%Q /\ cnt = O /\ touches (window_fb t0 y 6 2%Q (0%Q, 6%Z)) m0
  | _, _, _ => False
  end.
Proof.
  vm_compute. repeat split; try reflexivity. eexists. split; [reflexivity|discriminate].
Qed.

(** ** C48: pixel mapping of guide lines *)
Theorem C48_guide_pixels res u : (0 < res)%Z ->
  exists l, uia_to_image_list int_of_float res u = Ok l /\
    (-1/2 <= u < 3/2 -> exists p, l = [p] /\ (0 <= p < res)%Z /\ IZR p <= (u + 1/2) / 2 * IZR res < IZR p + 1) /\
    (3/2 <= u < 3/2 + 2 / IZR res -> l = [res]) /\
    (3/2 + 2 / IZR res <= u -> l = []) /\
    (u <= -1/2 - 2 / IZR res -> l = []) /\
    (-1/2 - 2 / IZR res < u < -1/2 -> l = [0%Z]).
Proof.
  intros Hr. destruct (uia_R res u Hr) as (p & Ep & Hpos & Hneg).
  assert (H0 : 0 < IZR res) by (apply (IZR_lt 0); exact Hr).
  assert (Hi : 0 < / IZR res) by (apply Rinv_0_lt_compat; exact H0).
  assert (Eq : 2 / IZR res * IZR res = 2) by (field; lra).
  unfold uia_to_image_list. rewrite Ep. cbn [bind]. eexists. split; [reflexivity|].
  repeat split.
  - intros Hu. destruct (Hpos (proj1 Hu)) as [H1 H2]. 
    assert (Hlt : (p < res)%Z).
    { apply lt_IZR. apply Rle_lt_trans with ((u + 1/2) / 2 * IZR res); [lra|].
      replace (IZR res) with (1 * IZR res) at 2 by ring. apply Rmult_lt_compat_r; lra. }
    exists p. rewrite (proj2 (Z.leb_le 0 p)), (proj2 (Z.leb_le p res)) by lia. cbn [andb].
    split; [reflexivity|]. split; [lia|exact H1].
  - intros [Hu1 Hu2]. destruct (Hpos ltac:(lra)) as [H1 H2].
    assert (IZR res <= (u + 1/2) / 2 * IZR res < IZR res + 1) by (split; nra).
    assert (p = res). { apply Z.le_antisymm; apply Z.lt_succ_r, lt_IZR; rewrite succ_IZR; lra. }
    subst p. rewrite (proj2 (Z.leb_le 0 res)), Z.leb_refl by lia. reflexivity.
  - intros Hu. assert (-1/2 <= u) by (apply Rle_trans with (3/2 + 2 / IZR res); [|exact Hu]; unfold Rdiv; nra).
    destruct (Hpos H) as [H1 H2].
    assert ((u + 1/2) / 2 * IZR res >= IZR res + 1) by nra.
    assert (res < p)%Z by (apply lt_IZR; lra).
    rewrite (proj2 (Z.leb_gt p res)) by lia. rewrite andb_false_r. reflexivity.
  - intros Hu. assert (u < -1/2) by (unfold Rdiv in Hu; nra).
    destruct (Hneg H) as [H1 H2].
    assert ((u + 1/2) / 2 * IZR res <= -1) by nra.
    assert (p < 0)%Z by (apply lt_IZR; lra).
    rewrite (proj2 (Z.leb_gt 0 p)) by lia. reflexivity.
  - intros [Hu1 Hu2]. destruct (Hneg Hu2) as [H1 H2].
    assert ((u + 1/2) / 2 * IZR res > -1) by nra.
    assert (-1 < p)%Z by (apply lt_IZR; lra). assert (p = 0%Z) by lia. subst p.
    rewrite (proj2 (Z.leb_le 0 res)) by lia. reflexivity.
Qed.
Print Assumptions C48_guide_pixels.

(** "Always inside the image" is false: the right edge gives index 10 of 10. *)
Example C48_inside_refuted : uia_to_image_list truncQ 10 (3#2)%Q = Ok [10%Z].
Proof. vm_compute. reflexivity. Qed.
(** A line just left of the image is drawn in its first column. *)
Example C48_left_of_image_refuted : uia_to_image_list truncQ 10 (-6#10)%Q = Ok [0%Z].
Proof. vm_compute. reflexivity. Qed.

(** ** C49: bathtub curves *)

(** Any crossing times in [0, 1]: the curve starts at (0, 1), ends at (1, 1), its
    times are those crossings in order, its left wall strictly falls, its right
    wall strictly rises, and each point is the fraction of the crossings of its
    side at or beyond that time (up to the multiplicity of equal times). *)
Theorem C49_bathtub (hs : list R) : (forall h, In h hs -> 0 <= h <= 1) ->
  exists tl bl tr br, bathtub hs = ([0] ++ tl ++ tr ++ [1], [1] ++ bl ++ br ++ [1]) /\
    Permutation (tl ++ tr) hs /\ StronglySorted Rle ([0] ++ tl ++ tr ++ [1]) /\
    Forall (fun t => t <= 1/2) tl /\ Forall (fun t => 1/2 < t) tr /\
    length bl = length tl /\ length br = length tr /\
    StronglySorted Rgt bl /\ StronglySorted Rlt br /\
    Forall (fun b => 0 < b <= 1) (bl ++ br) /\
    (forall i t b, nth_error tl i = Some t -> nth_error bl i = Some b ->
       count (fun h => Rleb h (1/2) && Rltb t h) hs < b * count (fun h => Rleb h (1/2)) hs
         <= count (fun h => Rleb h (1/2) && Rleb t h) hs) /\
    (forall i t b, nth_error tr i = Some t -> nth_error br i = Some b ->
       count (fun h => Rltb (1/2) h && Rltb h t) hs < b * count (fun h => Rltb (1/2) h) hs
         <= count (fun h => Rltb (1/2) h && Rleb h t) hs).
Proof. exact (bathtub_spec hs). Qed.
Print Assumptions C49_bathtub.

Lemma mapM_map {X Y} (f : X -> result Y) (g : X -> Y) l : (forall x, In x l -> f x = Ok (g x)) -> mapM f l = Ok (map g l).
Proof.
  induction l as [|x l IH]; intros Hf; [reflexivity|]. cbn [mapM map].
  rewrite (Hf x (or_introl eq_refl)), IH by (intros; apply Hf; right; assumption). reflexivity.
Qed.
Lemma mapM_map_arg {X Y Z} (h : X -> Y) (f : Y -> result Z) l : mapM f (map h l) = mapM (fun x => f (h x)) l.
Proof. induction l as [|x l IH]; [reflexivity|]. cbn [mapM map]. rewrite IH. reflexivity. Qed.

(** The curves of an eye diagram: one per level, made from exactly the times in
    [0, 1] UI at which a symbol window, normalised to UA, crosses the level; so
    the hypothesis of C49_bathtub is met. *)
Theorem C49_curves (t_delta t_sym y_zero y_ua : R) waves levels w t0 : 0 < t_sym -> 0 < t_delta ->
  get_i_width int_of_float t_sym t_delta = Ok w -> window_axis w t_sym t_delta = Ok t0 ->
  (forall wv s, In wv waves -> In s (snd wv) -> 0 <= snd s - w /\ snd s + w < Z.of_nat (length (fst wv)))%Z ->
  exists crossings : R -> list R,
    bathtub_curves int_of_float t_delta t_sym y_zero y_ua waves levels = Ok (map (fun l => bathtub (crossings l)) levels) /\
    (forall l x, In x (crossings l) <->
       exists wv v a b, In wv waves /\ In v (windows t0 (fst wv) w t_sym y_zero y_ua (snd wv)) /\
         In (a, b) (adjacent (points v)) /\ snd a <> snd b /\ on_segment a b (x, l) /\ 0 <= x <= 1).
Proof.
  intros Hs Hd Ew Et Hfit.
  set (cr := fun (wv : list R * list (@symbol R)) l =>
    flat_map (fun v => map fst (all_pairs (points v) [level_path l])) (windows t0 (fst wv) w t_sym y_zero y_ua (snd wv))).
  exists (fun l => flat_map (fun wv => cr wv l) waves). split.
  - unfold bathtub_curves. rewrite (mapM_map _ (fun wv => map (cr wv) levels)).
    2: { intros wv Hwv. apply (y_slice_spec _ _ _ _ _ _ _ w t0 Hs Hd Ew Et). intros s Hin. exact (Hfit wv s Hwv Hin). }
    cbn [bind].
    assert (G : forall ls pre, (length pre + length ls = length levels)%nat -> levels = pre ++ ls ->
      mapM (fun i => (hs <- mapM (fun o => get o i) (map (fun wv => map (cr wv) levels) waves) ;; Ok (bathtub (concat hs)))%result)
        (seq (length pre) (length ls)) = Ok (map (fun l => bathtub (flat_map (fun wv => cr wv l) waves)) ls)).
    { induction ls as [|l ls IH]; intros pre Hn El; [reflexivity|]. cbn [length seq mapM map].
      rewrite mapM_map_arg, (mapM_map _ (fun wv => cr wv l)).
      2: { intros wv _. unfold get. rewrite nth_error_map, El, nth_error_app2, Nat.sub_diag by lia. reflexivity. }
      cbn [bind]. specialize (IH (pre ++ [l])). rewrite app_length in IH. cbn [length] in IH.
      rewrite Nat.add_1_r in IH. rewrite IH; [|cbn in Hn; lia|rewrite <- app_assoc; exact El].
      cbn [bind]. rewrite flat_map_concat_map. reflexivity. }
    exact (G levels [] eq_refl eq_refl).
  - intros l x. rewrite in_flat_map. unfold cr. split.
    + intros (wv & Hwv & Hx). apply in_flat_map in Hx. destruct Hx as (v & Hv & Hx). apply level_crossing_iff in Hx.
      destruct Hx as (a & b & Hx). exists wv, v, a, b. tauto.
    + intros (wv & v & a & b & Hwv & Hv & Hx). exists wv. split; [exact Hwv|]. apply in_flat_map. exists v. split; [exact Hv|].
      apply level_crossing_iff. exists a, b. exact Hx.
Qed.
Print Assumptions C49_curves.

Example C49_witness : bathtub [(3#4)%Q; (1#8)%Q; (1#4)%Q; (7#8)%Q; (1#4)%Q] =
  ([0; 1#8; 1#4; 1#4; 3#4; 7#8; 1]%Q, [1; 1; 2#3; 1#3; 1#2; 1; 1]%Q).
Proof. vm_compute. reflexivity. Qed.

(** ** C50: heat map *)

(** Point clouds: every column holding at least one sample has total n_sym, and
    within a column every pixel is proportional to the number of samples whose
    pixel it is ([wave_pixels] is one pixel per sample of every symbol window). *)
Theorem C50_point_cloud cast (t_delta t_sym y_zero y_ua : R) res w t0 fuel waves n_sym :
  get_i_width int_of_float t_sym t_delta = Ok w -> window_axis w t_sym t_delta = Ok t0 -> (0 <= res)%Z ->
  let pixels := flat_map (wave_pixels cast t_sym y_zero y_ua res w t0) waves in
  exists img, step5_heatmap int_of_float cast fuel t_delta t_sym y_zero y_ua waves res true n_sym = Ok img /\
  forall col, (0 <= col < res)%Z ->
    ((exists row, (0 <= row < res)%Z /\ In (col, row) pixels) ->
       rsum (map (fun row => img (Z.of_nat row) col) (seq 0 (Z.to_nat res))) = IZR n_sym) /\
    (exists k, forall row, (0 <= row < res)%Z -> img row col = k * IZR (visits col (res - 1 - row) pixels)).
Proof. intros Ew Et Hr. exact (step5_point_cloud cast t_delta t_sym y_zero y_ua res w t0 Ew Et fuel waves n_sym Hr). Qed.
Print Assumptions C50_point_cloud.

(** Lines: the count of a pixel is the number of times the rasterised symbol
    polylines pass it, independent of the grid's other pixels. *)
Theorem C50_lines cast (t_delta t_sym y_zero y_ua : R) res w t0 waves n_sym : 0 < t_sym -> 0 < t_delta ->
  get_i_width int_of_float t_sym t_delta = Ok w -> window_axis w t_sym t_delta = Ok t0 -> (0 <= res)%Z ->
  (forall wv s, In wv waves -> In s (snd wv) -> 0 <= snd s - w /\ snd s + w < Z.of_nat (length (fst wv)))%Z ->
  exists ptsl, Forall2 raster_polyline
    (flat_map (fun wv => map (symbol_pixels cast (fst wv) t_sym (- (1/2) * y_ua + y_zero) (3/2 * y_ua + y_zero) res w t0) (snd wv)) waves) ptsl /\
  exists enough, forall fuel, (enough <= fuel)%nat -> exists img,
    step5_heatmap int_of_float cast fuel t_delta t_sym y_zero y_ua waves res false n_sym = Ok img /\
    forall row col, (0 <= col < res)%Z -> (0 <= row < res)%Z ->
      img row col = IZR (visits col (res - 1 - row) (concat ptsl)).
Proof.
  intros Hs Hd Ew Et Hr Hfit.
  exact (step5_lines cast t_delta t_sym y_zero y_ua res w t0 Hs Hd Ew Et waves n_sym Hr Hfit).
Qed.
Print Assumptions C50_lines.

(** The image row and column of one sample, inside [-0.5, 1.5) UI and UA: the
    pixel whose cell contains it, row 0 at the top. *)
Theorem C50_pixel (p : R * R) res : (0 < res)%Z ->
  0 <= (fst p + 1/2) / 2 < 1 -> 0 <= snd p < 1 ->
  let q := pixel_of truncR res p in
  (0 <= fst q < res)%Z /\ (0 <= snd q < res)%Z /\
  IZR (fst q) <= (fst p + 1/2) / 2 * IZR res < IZR (fst q) + 1 /\
  IZR (snd q) <= snd p * IZR res < IZR (snd q) + 1.
Proof.
  intros Hr Hx Hy. assert (H0 : 0 < IZR res) by (apply (IZR_lt 0); exact Hr). unfold pixel_of. cbn [fst snd].
  assert (G : forall z, 0 <= z < 1 -> (0 <= truncR (z * IZR res) < res)%Z /\ IZR (truncR (z * IZR res)) <= z * IZR res < IZR (truncR (z * IZR res)) + 1).
  { intros z Hz. destruct (truncR_pos (z * IZR res) ltac:(apply Rmult_le_pos; lra)) as [H1 H2]. split; [|exact H1].
    split; [exact H2|]. apply lt_IZR. apply Rle_lt_trans with (z * IZR res); [lra|].
    replace (IZR res) with (1 * IZR res) at 2 by ring. apply Rmult_lt_compat_r; lra. }
  destruct (G _ Hx), (G _ Hy). tauto.
Qed.
Print Assumptions C50_pixel.

(** A 4 by 4 image of one window. *)
Definition castQ (x : Q) : Z := Z.quot (Qnum x) (Zpos (Qden x)).
Example C50_witness :
  match step5_heatmap truncQ castQ 100 (1#2)%Q 2%Q 0%Q 1%Q [(flat 6 0 ++ [1] ++ flat 6 1, [(0, 6%Z)])%Q] 4 true 1 with
  | Ok img => map (fun row => map (img row) [0;1;2;3]%Z) [0;1;2;3]%Z =
      [[0; 0; 1; 1]; [0; 0; 0; 0]; [1; 1; 0; 0]; [0; 0; 0; 0]]%Q
  | Err _ => False
  end.
Proof. vm_compute. reflexivity. Qed.
(** A sample below the image (at -0.6 UA) is counted in its bottom row. *)
Example C50_outside_sample_refuted :
  match step5_heatmap truncQ castQ 100 (1#2)%Q 2%Q 0%Q 1%Q [(flat 13 (-6#10), [(0, 6%Z)])%Q] 4 true 1 with
  | Ok img => map (img 3%Z) [0;1;2;3]%Z = [1; 1; 1; 1]%Q
  | Err _ => False
  end.
Proof. vm_compute. reflexivity. Qed.
