From Coq Require Import List ZArith Bool Lia Sorted Reals Lra Psatz.
Import ListNotations.
From Verif Require Import Base Num RBool LinesModel LinesSpec LinesProofs.
Local Open Scope R_scope.
Local Open Scope result_scope.

(** *** intersection over the reals *)
Lemma param_range d n : d <> 0 -> (0 <= n / d <= 1 <-> if Rltb 0 d then 0 <= n <= d else d <= n <= 0).
Proof.
  intros Hd. assert (Hn : n = n / d * d) by (field; lra). set (k := n / d) in * .
  destruct (Rltb 0 d) eqn:E; [apply Rltb_true in E|apply Rltb_false in E]; rewrite Hn; split; intros; nra.
Qed.

Lemma intersection_R p q r s seg x :
  intersection (fst p) (snd p) (fst q) (snd q) (fst r) (snd r) (fst s) (snd s) seg = Some x <->
  ~ parallel p q r s /\
  if seg then on_segment p q x /\ on_segment r s x else on_line p q x /\ on_line r s x.
Proof.
  destruct p as [p1 p2], q as [q1 q2], r as [r1 r2], s as [s1 s2], x as [x1 x2].
  unfold intersection, parallel, on_segment, on_line, at_param. cbn.
  set (d := (p1 - q1) * (r2 - s2) - (p2 - q2) * (r1 - s1)).
  set (tn := (p1 - r1) * (r2 - s2) - (p2 - r2) * (r1 - s1)).
  set (un := (p1 - r1) * (p2 - q2) - (p2 - r2) * (p1 - q1)).
  assert (Hpar : (q1 - p1) * (s2 - r2) - (q2 - p2) * (s1 - r1) = d) by (unfold d; ring).
  rewrite Hpar.
  destruct (Reqb d 0) eqn:Ed; [apply Reqb_true in Ed|apply Reqb_false in Ed].
  { split; [discriminate|]. intros [H _]. contradiction. }
  assert (Hx : p1 + tn / d * (q1 - p1) = r1 + un / d * (s1 - r1) /\
               p2 + tn / d * (q2 - p2) = r2 + un / d * (s2 - r2)).
  { unfold tn, un. split; apply Rmult_eq_reg_r with d; try assumption;
      rewrite !Rmult_plus_distr_r; unfold Rdiv.
    - replace (((p1 - r1) * (r2 - s2) - (p2 - r2) * (r1 - s1)) * / d * (q1 - p1) * d)
        with (((p1 - r1) * (r2 - s2) - (p2 - r2) * (r1 - s1)) * (q1 - p1)) by (field; assumption).
      replace (((p1 - r1) * (p2 - q2) - (p2 - r2) * (p1 - q1)) * / d * (s1 - r1) * d)
        with (((p1 - r1) * (p2 - q2) - (p2 - r2) * (p1 - q1)) * (s1 - r1)) by (field; assumption).
      unfold d. ring.
    - replace (((p1 - r1) * (r2 - s2) - (p2 - r2) * (r1 - s1)) * / d * (q2 - p2) * d)
        with (((p1 - r1) * (r2 - s2) - (p2 - r2) * (r1 - s1)) * (q2 - p2)) by (field; assumption).
      replace (((p1 - r1) * (p2 - q2) - (p2 - r2) * (p1 - q1)) * / d * (s2 - r2) * d)
        with (((p1 - r1) * (p2 - q2) - (p2 - r2) * (p1 - q1)) * (s2 - r2)) by (field; assumption).
      unfold d. ring. }
  assert (Huniq : forall a b, p1 + a * (q1 - p1) = r1 + b * (s1 - r1) ->
                              p2 + a * (q2 - p2) = r2 + b * (s2 - r2) -> a = tn / d /\ b = un / d).
  { intros a b E1 E2.
    assert (E1' : p1 - r1 = b * (s1 - r1) - a * (q1 - p1)) by lra.
    assert (E2' : p2 - r2 = b * (s2 - r2) - a * (q2 - p2)) by lra.
    assert (Ha : a * d = tn) by (unfold d, tn; rewrite E1', E2'; ring).
    assert (Hb : b * d = un) by (unfold d, un; rewrite E1', E2'; ring).
    split; [rewrite <- Ha|rewrite <- Hb]; field; assumption. }
  pose proof (param_range d tn Ed) as Ht. pose proof (param_range d un Ed) as Hu.
  set (out := if seg then _ else false).
  assert (Hout : out = false <-> if seg then 0 <= tn / d <= 1 /\ 0 <= un / d <= 1 else True).
  { unfold out. destruct seg; [|tauto]. rewrite Ht, Hu.
    destruct (Rltb 0 d) eqn:E; rewrite !orb_false_iff, !Rltb_false; lra. }
  clearbody out.
  destruct out; cbv iota.
  - split; [discriminate|]. intros [_ Hseg]. exfalso. destruct seg; [|assert (true = false) by tauto; discriminate].
    destruct Hseg as [(a & Ha & Ea1 & Ea2) (b & Hb & Eb1 & Eb2)].
    destruct (Huniq a b) as [-> ->]; [lra|lra|]. assert (true = false) by tauto. discriminate.
  - assert (Hout' := proj1 Hout eq_refl). split.
    + intros E. injection E as <- <-. split; [assumption|].
      destruct Hx as [Hx1 Hx2].
      destruct seg; split.
      * exists (tn / d). repeat split; try tauto; lra.
      * exists (un / d). repeat split; try tauto; lra.
      * exists (tn / d). split; lra.
      * exists (un / d). split; lra.
    + intros [_ Hseg].
      assert (exists a b, (x1 = p1 + a * (q1 - p1) /\ x2 = p2 + a * (q2 - p2)) /\
                          (x1 = r1 + b * (s1 - r1) /\ x2 = r2 + b * (s2 - r2))) as (a & b & [Ea1 Ea2] & Eb1 & Eb2).
      { destruct seg.
        - destruct Hseg as [(a & _ & Ha) (b & _ & Hb)]. exists a, b. split; assumption.
        - destruct Hseg as [(a & Ha) (b & Hb)]. exists a, b. split; assumption. }
      destruct (Huniq a b) as [Ha Hb]; [lra|lra|]. rewrite <- Ha, <- Ea1, <- Ea2. reflexivity.
Qed.

(** *** hits *)
Lemma foldM_range_adj {X S} (f : S -> nat -> result S) (F : S -> X * X -> S) :
  forall (l : list X) k s,
  (forall s i a b, (1 <= i)%nat -> nth_error l (i - 1) = Some a -> nth_error l i = Some b ->
     f s (k + i)%nat = Ok (F s (a, b))) ->
  foldM f s (seq (k + 1) (length l - 1)) = Ok (fold_left F (adjacent l) s).
Proof.
  induction l as [|a l IH]; intros k s Hf; [reflexivity|].
  destruct l as [|b l]; [reflexivity|].
  replace (length (a :: b :: l) - 1)%nat with (Datatypes.S (length l)) by (cbn [length]; lia).
  change (adjacent (a :: b :: l)) with ((a, b) :: adjacent (b :: l)).
  cbn [seq foldM fold_left].
  rewrite (Hf s 1%nat a b) by (try lia; reflexivity).
  specialize (IH (k + 1)%nat (F s (a, b))).
  replace (length (b :: l) - 1)%nat with (length l) in IH by (cbn [length]; lia).
  replace (Datatypes.S (k + 1)) with (k + 1 + 1)%nat by lia. apply IH.
  intros s' i c d Hi Hc Hd. replace (k + 1 + i)%nat with (k + Datatypes.S i)%nat by lia.
  apply Hf; [lia| |exact Hd]. replace (Datatypes.S i - 1)%nat with (Datatypes.S (i - 1)) by lia. exact Hc.
Qed.

Lemma foldM_adj {X S} (f : S -> nat -> result S) (F : S -> X * X -> S) (l : list X) s :
  (forall s i a b, (1 <= i)%nat -> nth_error l (i - 1) = Some a -> nth_error l i = Some b ->
     f s i = Ok (F s (a, b))) ->
  foldM f s (range 1 (length l)) = Ok (fold_left F (adjacent l) s).
Proof. intros Hf. apply (foldM_range_adj f F l 0 s). intros. apply Hf; assumption. Qed.

Lemma fold_left_ext_in {S X} (f g : S -> X -> S) l : forall s,
  (forall s x, In x l -> f s x = g s x) -> fold_left f l s = fold_left g l s.
Proof.
  induction l as [|x l IH]; intros s Hfg; cbn [fold_left]; [reflexivity|].
  rewrite Hfg by (left; reflexivity). apply IH. intros; apply Hfg; right; assumption.
Qed.

Lemma fold_app_flat_map {X Y} (g : X -> list Y) l : forall acc,
  fold_left (fun acc x => acc ++ g x) l acc = acc ++ flat_map g l.
Proof.
  induction l as [|x l IH]; intros acc; cbn [fold_left flat_map]; [rewrite app_nil_r; reflexivity|].
  rewrite IH, app_assoc. reflexivity.
Qed.

Lemma get_map {X Y} (f : X -> Y) l i a : nth_error l i = Some a -> get (map f l) i = Ok (f a).
Proof. intros H. apply get_ok. rewrite nth_error_map, H. reflexivity. Qed.

Definition opt_list {X} (o : option X) : list X := match o with Some x => [x] | None => [] end.

(** The intersection of waveform segment (a, b) and path segment (c, d). *)
Definition meet (ab cd : point * point) : option point :=
  let '(a, b) := ab in let '(c, d) := cd in
  intersection (fst b) (snd b) (fst a) (snd a) (fst d) (snd d) (fst c) (snd c) true.

(** Every pair of segments, no shortcut. *)
Definition all_pairs (wave : list point) (paths : list (list point)) : list point :=
  flat_map (fun path =>
    flat_map (fun ab => flat_map (fun cd => opt_list (meet ab cd)) (adjacent path)) (adjacent wave)) paths.

Lemma path_loop_all a b path acc :
  hits_path_loop (fst b) (snd b) (fst a) (snd a) (map fst path) (map snd path) acc =
  Ok (acc ++ flat_map (fun cd => opt_list (meet (a, b) cd)) (adjacent path)).
Proof.
  unfold hits_path_loop. rewrite map_length.
  rewrite (foldM_adj _ (fun acc cd => acc ++ opt_list (meet (a, b) cd)) path).
  - rewrite fold_app_flat_map. reflexivity.
  - intros s i c d Hi Hc Hd.
    rewrite !(get_map _ _ _ _ Hc), !(get_map _ _ _ _ Hd). cbn [bind]. unfold meet.
    destruct (intersection _ _ _ _ _ _ _ _ _); cbn [opt_list]; [reflexivity|rewrite app_nil_r; reflexivity].
Qed.

Lemma adjacent_in {X} (l : list X) a b : In (a, b) (adjacent l) -> In a l /\ In b l.
Proof.
  revert a b. induction l as [|x l IH]; intros a b; [intros []|].
  destruct l as [|y l]; [intros []|]. intros [E|Hin].
  - injection E as <- <-. split; [left; reflexivity|right; left; reflexivity].
  - destruct (IH a b Hin). split; right; assumption.
Qed.

Lemma adjacent_nth {X} (l : list X) i a b : (1 <= i)%nat ->
  nth_error l (i - 1) = Some a -> nth_error l i = Some b -> In (a, b) (adjacent l).
Proof.
  revert i. induction l as [|x l IH]; intros i Hi Ha Hb; [destruct i; discriminate|].
  destruct i as [|i]; [lia|]. replace (S i - 1)%nat with i in Ha by lia. cbn in Hb.
  destruct l as [|y l]; [destruct i; discriminate|].
  destruct i as [|i].
  - injection Ha as <-. injection Hb as <-. left; reflexivity.
  - right. apply (IH (S i)); [lia| |exact Hb]. replace (S i - 1)%nat with i by lia. exact Ha.
Qed.

(** A skipped segment meets no segment of the path. *)
Lemma skip_sound a b c d mt Mt my My :
  fst a <= fst b ->
  mt <= fst c <= Mt -> mt <= fst d <= Mt -> my <= snd c <= My -> my <= snd d <= My ->
  skip_segment (fst a) (fst b) (snd a) (snd b) mt Mt my My = true ->
  meet (a, b) (c, d) = None.
Proof.
  intros Hab Hc1 Hd1 Hc2 Hd2 Hskip. destruct (meet (a, b) (c, d)) as [x|] eqn:E; [|reflexivity]. exfalso.
  unfold meet in E. apply (intersection_R b a d c true x) in E.
  destruct E as [_ [(u & Hu & Ex1 & Ex2) (v & Hv & Ey1 & Ey2)]].
  assert (Hbx : mt <= fst x <= Mt /\ my <= snd x <= My).
  { rewrite Ey1, Ey2. clear - Hc1 Hd1 Hc2 Hd2 Hv. split; split; nra. }
  assert (Hax : fst a <= fst x <= fst b) by (rewrite Ex1; clear - Hab Hu; split; nra).
  assert (Hay : (snd a <= snd x <= snd b) \/ (snd b <= snd x <= snd a)).
  { rewrite Ex2. clear - Hu. destruct (Rle_lt_dec (snd a) (snd b)); [left|right]; split; nra. }
  unfold skip_segment in Hskip. cbn in Hskip.
  destruct (Rltb (fst b) mt || Rltb Mt (fst a)) eqn:E1.
  - apply orb_true_iff in E1. rewrite !Rltb_true in E1. lra.
  - destruct (Rltb (snd a) (snd b)) eqn:E2; apply orb_true_iff in Hskip; rewrite !Rltb_true in Hskip;
      [apply Rltb_true in E2|apply Rltb_false in E2]; lra.
Qed.

Definition nondecreasing (wave : list point) : Prop :=
  forall a b, In (a, b) (adjacent wave) -> fst a <= fst b.

Lemma hits_all_pairs wave paths : nondecreasing wave -> Forall (fun p => p <> []) paths ->
  hits (map fst wave) (map snd wave) paths = Ok (all_pairs wave paths).
Proof.
  intros Hnd Hne. unfold hits, all_pairs.
  set (F := fun path => flat_map (fun ab => flat_map (fun cd => opt_list (meet ab cd)) (adjacent path)) (adjacent wave)).
  assert (H : forall ps acc, Forall (fun p => p <> []) ps ->
    foldM (fun acc path =>
    let path_t := map fst path in
    let path_y := map snd path in
    min_t <- py_min path_t ;;
    max_t <- py_max path_t ;;
    min_y <- py_min path_y ;;
    max_y <- py_max path_y ;;
    foldM (fun acc i =>
      ti <- get (map fst wave) i ;;
      tp <- get (map fst wave) (i - 1) ;;
      yi <- get (map snd wave) i ;;
      yp <- get (map snd wave) (i - 1) ;;
      if skip_segment tp ti yp yi min_t max_t min_y max_y then Ok acc
      else hits_path_loop ti yi tp yp path_t path_y acc)
      acc (range 1 (length wave))) acc ps = Ok (acc ++ flat_map F ps)).
  2: { rewrite map_length. exact (H paths [] Hne). }
  induction ps as [|path ps IH]; intros acc Hps; cbn [foldM flat_map]; [rewrite app_nil_r; reflexivity|].
  inversion Hps as [|? ? Hp Hps']; subst. cbv zeta.
  destruct (py_min_R (map fst path)) as (mt & -> & _ & Hmt); [destruct path; [congruence|discriminate]|].
  destruct (py_max_R (map fst path)) as (Mt & -> & _ & HMt); [destruct path; [congruence|discriminate]|].
  destruct (py_min_R (map snd path)) as (my & -> & _ & Hmy); [destruct path; [congruence|discriminate]|].
  destruct (py_max_R (map snd path)) as (My & -> & _ & HMy); [destruct path; [congruence|discriminate]|].
  cbn [bind].
  rewrite (foldM_adj _ (fun acc ab => acc ++ flat_map (fun cd => opt_list (meet ab cd)) (adjacent path)) wave).
  - rewrite fold_app_flat_map. rewrite IH by assumption. rewrite <- app_assoc. reflexivity.
  - intros s i a b Hi Ha Hb.
    rewrite !(get_map _ _ _ _ Ha), !(get_map _ _ _ _ Hb). cbn [bind].
    destruct (skip_segment _ _ _ _ _ _ _ _) eqn:Es; [|apply path_loop_all].
    assert (Hnil : flat_map (fun cd => opt_list (meet (a, b) cd)) (adjacent path) = []).
    { assert (Hsub : forall cd, In cd (adjacent path) -> meet (a, b) cd = None).
      { intros [c d] Hcd. destruct (adjacent_in _ _ _ Hcd) as [Hc Hd].
        apply (skip_sound a b c d mt Mt my My); try assumption.
        - apply Hnd. apply (adjacent_nth wave i); assumption.
        - split; [apply Hmt|apply HMt]; apply in_map; assumption.
        - split; [apply Hmt|apply HMt]; apply in_map; assumption.
        - split; [apply Hmy|apply HMy]; apply in_map; assumption.
        - split; [apply Hmy|apply HMy]; apply in_map; assumption. }
      induction (adjacent path) as [|cd l IHl]; [reflexivity|]. cbn [flat_map].
      rewrite Hsub by (left; reflexivity). apply IHl. intros; apply Hsub; right; assumption. }
    rewrite Hnil, app_nil_r. reflexivity.
Qed.

Lemma parallel_swap p q r s : parallel q p s r <-> parallel p q r s.
Proof. unfold parallel. split; intros H; rewrite <- H; ring. Qed.

Lemma on_segment_swap p q x : on_segment q p x <-> on_segment p q x.
Proof.
  unfold on_segment, at_param. split; intros (t & Ht & E1 & E2); exists (1 - t); split; try lra;
    rewrite E1, E2; split; ring.
Qed.

Lemma all_pairs_in wave paths x : In x (all_pairs wave paths) <->
  exists path a b c d, In path paths /\ In (a, b) (adjacent wave) /\ In (c, d) (adjacent path) /\
    ~ parallel a b c d /\ on_segment a b x /\ on_segment c d x.
Proof.
  unfold all_pairs. rewrite in_flat_map. split.
  - intros (path & Hp & Hin). apply in_flat_map in Hin. destruct Hin as ([a b] & Hab & Hin).
    apply in_flat_map in Hin. destruct Hin as ([c d] & Hcd & Hin).
    exists path, a, b, c, d. repeat (split; [assumption|]).
    destruct (meet (a, b) (c, d)) eqn:E; [|destruct Hin]. destruct Hin as [->|[]].
    unfold meet in E. apply (intersection_R b a d c true x) in E.
    rewrite parallel_swap, (on_segment_swap a b), (on_segment_swap c d) in E. exact E.
  - intros (path & a & b & c & d & Hp & Hab & Hcd & H).
    exists path. split; [assumption|]. apply in_flat_map. exists (a, b). split; [assumption|].
    apply in_flat_map. exists (c, d). split; [assumption|].
    rewrite <- parallel_swap, <- (on_segment_swap a b), <- (on_segment_swap c d) in H.
    apply (intersection_R b a d c true x) in H. unfold meet. rewrite H. left; reflexivity.
Qed.
