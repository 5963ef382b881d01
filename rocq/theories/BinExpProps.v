(** Theorems about exponential bins. *)
From Coq Require Import ZArith Reals Bool List Lia Lra.
Import ListNotations.
From Verif Require Import Base Num RBool StatsModel StatsSpec StatsProofs MathModel MathSpec MathProofs GaussProofs BinExpProofs.
From Verif Require CdrProofs.
Local Open Scope R_scope.

Definition top_of (y : list R) (top : Z) : Prop :=
  (forall x, In x y -> x <= Rpower 10 (IZR top))
  /\ (((exists x, In x y /\ Rpower 10 (IZR top - 1) < x)) \/ ((forall x, In x y -> x = 0) /\ top = 0%Z)).
Lemma nondecreasing_map (f : nat -> R) n : (forall i j, (i <= j)%nat -> f i <= f j) -> forall k, nondecreasing (map (fun i => Some (f i)) (seq k n)) = true.
Proof.
  intros F. induction n as [|n IH]; intros k; [reflexivity|]. destruct n as [|n]; [reflexivity|]. specialize (IH (S k)). cbn [seq map nondecreasing] in *  . cbn [below]. rewrite (proj2 (Rltb_false (f (S k)) (f k))) by (apply F; lia). exact IH.
Qed.
Lemma finite_map y : finite (map lg y) = map (fun x => ln x / ln 10) (filter (fun x => negb (Reqb x 0)) y).
Proof.
  induction y as [|x y IH]; [reflexivity|]. cbn [map finite flat_map filter]. fold (finite (map lg y)). rewrite IH. unfold lg. destruct (Reqb x 0); reflexivity.
Qed.
Lemma zero_test y : existsb (fun v : option R => match v with None => true | _ => false end) (map lg y) = true <-> In 0 y.
Proof.
  rewrite existsb_exists. split.
  - intros (v & V & N). apply in_map_iff in V. destruct V as (x & E & X). unfold lg in E. destruct (Reqb x 0) eqn:Q; [apply Reqb_true in Q; subst x; exact X|]. subst v. discriminate.
  - intros X. exists None. split; [|reflexivity]. apply in_map_iff. exists 0. split; [|exact X]. unfold lg. rewrite (proj2 (Reqb_true 0 0) eq_refl). reflexivity.
Qed.
Lemma ceil_spec m : m <= IZR (ceil m) < m + 1.
Proof. unfold ceil. rewrite opp_IZR. pose proof (base_Int_part (- m)) as (A & B). lra. Qed.
Lemma nth_error_last {X} (f : nat -> X) n : (1 <= n)%nat -> nth_error (map f (seq 0 n)) (length (map f (seq 0 n)) - 1) = Some (f (n - 1)%nat).
Proof. intros N. rewrite map_length, seq_length. apply nth_error_seq_map. lia. Qed.
Lemma bins_zero y n : y <> [] -> (forall x, In x y -> 0 <= x) -> (1 <= n)%nat -> In 0 y ->
  exists top counts edges, bin_exponential y n = Ok (counts, edges) /\ top_of y top
    /\ edges = None :: map (fun i => Some (IZR (top - Z.of_nat n + 1 + Z.of_nat i))) (seq 0 n)
    /\ length counts = n
    /\ (forall i c, nth_error counts i = Some c -> exists k, c = Z.of_nat k /\ number_of (in_decades edges i) y k)
    /\ (forall x, In x y -> exists! i, in_decades edges i x) /\ zsum counts = Z.of_nat (length y).
Proof.
  intros NE P N Z0. unfold bin_exponential. rewrite (CdrProofs.mapM_all log10 lg) by (intros x X; apply log10_ok; exact (P x X)). cbn [bind].
  destruct (map lg y) as [|v0 vs] eqn:EM; [destruct y; [congruence|discriminate EM]|]. rewrite <- EM. rewrite (proj2 (zero_test y) Z0). rewrite finite_map.
  assert (exists top, (match map (fun x => ln x / ln 10) (filter (fun x => negb (Reqb x 0)) y) with [] => Ok 0%Z | l => bind (py_max l) (fun m => Ok (ceil m)) end) = Ok top /\ top_of y top) as (top & ET & TO).
  { destruct (map (fun x => ln x / ln 10) (filter (fun x => negb (Reqb x 0)) y)) as [|r rs] eqn:EF.
    - exists 0%Z. split; [reflexivity|]. assert (AZ : forall x, In x y -> x = 0).
      { intros x X. destruct (Req_dec x 0) as [Q|Q]; [exact Q|exfalso]. apply map_eq_nil in EF. assert (I : In x (filter (fun x => negb (Reqb x 0)) y)) by (apply filter_In; split; [exact X|rewrite (proj2 (Reqb_false x 0) Q); reflexivity]). rewrite EF in I. destruct I. }
      split; [|right; split; [exact AZ|reflexivity]]. intros x X. rewrite (AZ x X). left. apply power_pos.
    - rewrite <- EF. destruct (py_max_R (map (fun x => ln x / ln 10) (filter (fun x => negb (Reqb x 0)) y))) as (m & E & I & B); [rewrite EF; discriminate|]. rewrite E. cbn [bind]. exists (ceil m). split; [reflexivity|].
      pose proof (ceil_spec m) as C. split.
      + intros x X. destruct (Req_dec x 0) as [->|Q]; [left; apply power_pos|]. assert (XP : 0 < x) by (specialize (P x X); lra). apply power_ge; [exact XP|]. apply Rle_trans with m; [|apply C]. apply B. apply in_map_iff. exists x. split; [reflexivity|]. apply filter_In. split; [exact X|]. rewrite (proj2 (Reqb_false x 0) Q). reflexivity.
      + left. apply in_map_iff in I. destruct I as (x & EX & X). apply filter_In in X. destruct X as (X & Q). exists x. split; [exact X|]. destruct (Reqb x 0) eqn:RQ; [discriminate Q|]. apply Reqb_false in RQ. assert (XP : 0 < x) by (specialize (P x X); lra).
        destruct (Rlt_or_le (Rpower 10 (IZR (ceil m) - 1)) x) as [L|L]; [exact L|]. apply power_ge in L; [|exact XP]. lra. }
  assert (ET' : (match map (fun x => ln x / ln 10) (filter (fun x => negb (Reqb x 0)) y) with [] => Ok 0%Z | r :: l => bind (py_max (r :: l)) (fun m => Ok (ceil m)) end) = Ok top) by exact ET.
  rewrite ET'. cbn [bind]. rewrite map_map. set (edges := None :: map (fun i => Some (IZR (top - (Z.of_nat n - 1) + Z.of_nat i))) (seq 0 n)).
  assert (ND : nondecreasing edges = true).
  { assert (Q : nondecreasing (map (fun i => Some (IZR (top - (Z.of_nat n - 1) + Z.of_nat i))) (seq 0 n)) = true) by (apply (nondecreasing_map (fun i => IZR (top - (Z.of_nat n - 1) + Z.of_nat i))); intros i j IJ; apply IZR_le; lia).
    unfold edges. destruct n as [|n']; [lia|]. cbn [seq map nondecreasing] in *  . cbn [below negb andb]. exact Q. }
  assert (LE : length edges = S n) by (unfold edges; cbn [length]; rewrite map_length, seq_length; reflexivity).
  assert (LZ : nth_error edges (length edges - 1) = Some (Some (IZR top))).
  { rewrite LE. unfold edges. replace (S n - 1)%nat with (S (n - 1)) by lia. cbn [nth_error]. rewrite (nth_error_seq_map (fun i : nat => Some (IZR (top - (Z.of_nat n - 1) + Z.of_nat i)))) by lia. do 3 f_equal. lia. }
  destruct (binned y edges None (Some (IZR top)) P ND ltac:(lia) eq_refl LZ) as (counts & EC & LC & NC & UC & SC).
  { intros x X. split; [reflexivity|]. apply le_spec; [exact (P x X)|]. cbn. apply TO. exact X. }
  exists top, counts, edges. rewrite EC. cbn [bind]. split; [reflexivity|]. split; [exact TO|]. split; [unfold edges; f_equal; apply map_ext; intros i; do 2 f_equal; lia|]. split; [lia|]. auto.
Qed.
Lemma bins_positive y n : y <> [] -> (forall x, In x y -> 0 < x) -> (1 <= n)%nat ->
  exists lo hi counts edges, bin_exponential y n = Ok (counts, edges) /\ lo <= hi /\ In (Rpower 10 lo) y /\ In (Rpower 10 hi) y /\ (forall x, In x y -> Rpower 10 lo <= x <= Rpower 10 hi)
    /\ edges = map (fun i => Some (lo + INR i * ((hi - lo) / INR n))) (seq 0 (n + 1))
    /\ length counts = n
    /\ (forall i c, nth_error counts i = Some c -> exists k, c = Z.of_nat k /\ number_of (in_decades edges i) y k)
    /\ (forall x, In x y -> exists! i, in_decades edges i x) /\ zsum counts = Z.of_nat (length y).
Proof.
  intros NE PS N. assert (P : forall x, In x y -> 0 <= x) by (intros x X; left; exact (PS x X)). unfold bin_exponential. rewrite (CdrProofs.mapM_all log10 lg) by (intros x X; apply log10_ok; exact (P x X)). cbn [bind].
  destruct (map lg y) as [|v0 vs] eqn:EM; [destruct y; [congruence|discriminate EM]|]. rewrite <- EM.
  destruct (existsb (fun v : option R => match v with None => true | _ => false end) (map lg y)) eqn:EX; [apply zero_test in EX; specialize (PS 0 EX); lra|].
  rewrite finite_map. assert (FA : filter (fun x => negb (Reqb x 0)) y = y) by (apply filter_all; intros x X; rewrite (proj2 (Reqb_false x 0)) by (specialize (PS x X); lra); reflexivity). rewrite FA.
  assert (NM : map (fun x => ln x / ln 10) y <> []) by (destruct y; [congruence|discriminate]).
  destruct (py_min_R _ NM) as (lo & EL & IL & BL). destruct (py_max_R _ NM) as (hi & EH & IH & BH). rewrite EL, EH. cbn [bind].
  assert (LH : lo <= hi) by exact (BL hi IH). apply in_map_iff in IL. destruct IL as (xl & XL & IL). apply in_map_iff in IH. destruct IH as (xh & XH & IH).
  assert (PW : forall x, 0 < x -> Rpower 10 (ln x / ln 10) = x) by (intros x X; unfold Rpower; replace (ln x / ln 10 * ln 10) with (ln x) by (field; pose proof ln10; lra); apply exp_ln; exact X).
  rewrite linspace_R by exact N. rewrite map_map. set (edges := map (fun i => Some (lo + INR i * ((hi - lo) / INR n))) (seq 0 (n + 1))).
  assert (HP : 0 <= (hi - lo) / INR n) by (apply Rmult_le_pos; [lra|left; apply Rinv_0_lt_compat, lt_0_INR; lia]).
  assert (ND : nondecreasing edges = true) by (apply (nondecreasing_map (fun i => lo + INR i * ((hi - lo) / INR n))); intros i j IJ; apply Rplus_le_compat_l, Rmult_le_compat_r; [exact HP|apply le_INR; exact IJ]).
  assert (LE : length edges = (n + 1)%nat) by (unfold edges; rewrite map_length, seq_length; reflexivity).
  assert (LF : nth_error edges 0 = Some (Some lo)) by (unfold edges; rewrite (nth_error_seq_map (fun i : nat => Some (lo + INR i * ((hi - lo) / INR n)))) by lia; do 2 f_equal; cbn; ring).
  assert (LZ : nth_error edges (length edges - 1) = Some (Some hi)).
  { rewrite LE. unfold edges. rewrite (nth_error_seq_map (fun i : nat => Some (lo + INR i * ((hi - lo) / INR n)))) by lia. do 2 f_equal. replace (n + 1 - 1)%nat with n by lia. field. apply not_0_INR. lia. }
  destruct (binned y edges (Some lo) (Some hi) P ND ltac:(lia) LF LZ) as (counts & EC & LC & NC & UC & SC).
  { intros x X. unfold lg. rewrite (proj2 (Reqb_false x 0)) by (specialize (PS x X); lra). cbn. split; apply Rleb_true; [apply BL|apply BH]; apply in_map_iff; exists x; auto. }
  exists lo, hi, counts, edges. rewrite EC. cbn [bind]. split; [reflexivity|]. split; [exact LH|]. split; [rewrite <- XL, PW by exact (PS xl IL); exact IL|]. split; [rewrite <- XH, PW by exact (PS xh IH); exact IH|].
  split; [|split; [reflexivity|split; [lia|auto]]]. intros x X. split; [apply power_le; [exact (PS x X)|apply BL; apply in_map_iff; exists x; auto]|apply power_ge; [exact (PS x X)|apply BH; apply in_map_iff; exists x; auto]].
Qed.

(** *** C56: exponential bins *)
(** Every sample is counted exactly once, in the bin of its magnitude. *)
Theorem C56_counts : forall y n, y <> [] -> (forall x, In x y -> 0 <= x) -> (1 <= n)%nat ->
  exists counts edges, bin_exponential y n = Ok (counts, edges) /\ length edges = (n + 1)%nat /\ length counts = n
    /\ (forall i c, nth_error counts i = Some c -> exists k, c = Z.of_nat k /\ number_of (in_decades edges i) y k)
    /\ (forall x, In x y -> exists! i, in_decades edges i x) /\ zsum counts = Z.of_nat (length y).
Proof.
  intros y n NE P N. destruct (in_dec Req_EM_T 0 y) as [Z0|NZ].
  - destruct (bins_zero y n NE P N Z0) as (top & counts & edges & E & _ & EE & L & R). exists counts, edges. split; [exact E|]. split; [rewrite EE; cbn [length]; rewrite map_length, seq_length; lia|]. auto.
  - destruct (bins_positive y n NE) as (lo & hi & counts & edges & E & _ & _ & _ & _ & EE & L & R); [|exact N|].
    { intros x X. destruct (P x X) as [Q|Q]; [exact Q|]. rewrite <- Q in X. destruct (NZ X). }
    exists counts, edges. split; [exact E|]. split; [rewrite EE, map_length, seq_length; reflexivity|]. auto.
Qed.
Print Assumptions C56_counts.
(** Samples above zero: equal exponential steps from the smallest to the
    largest.  With zeros: one bin for everything below whole decades up to the
    decade of the largest. *)
Theorem C56_edges : forall y n counts edges, y <> [] -> (forall x, In x y -> 0 <= x) -> (1 <= n)%nat ->
  bin_exponential y n = Ok (counts, edges) ->
  (~ In 0 y -> exists lo hi, In (Rpower 10 lo) y /\ In (Rpower 10 hi) y /\ (forall x, In x y -> Rpower 10 lo <= x <= Rpower 10 hi)
      /\ edges = map (fun i => Some (lo + INR i * ((hi - lo) / INR n))) (seq 0 (n + 1)))
  /\ (In 0 y -> exists top, top_of y top /\ edges = None :: map (fun i => Some (IZR (top - Z.of_nat n + 1 + Z.of_nat i))) (seq 0 n)).
Proof.
  intros y n counts edges NE P N E. split.
  - intros NZ. destruct (bins_positive y n NE) as (lo & hi & c' & e' & E' & _ & A & B & C & EE & _); [|exact N|].
    { intros x X. destruct (P x X) as [Q|Q]; [exact Q|]. rewrite <- Q in X. destruct (NZ X). }
    rewrite E in E'. injection E' as <- <-. exists lo, hi. auto.
  - intros Z0. destruct (bins_zero y n NE P N Z0) as (top & c' & e' & E' & T & EE & _). rewrite E in E'. injection E' as <- <-. exists top. auto.
Qed.
Print Assumptions C56_edges.
Lemma fold_sum l : fold_left Z.add l 0%Z = zsum l.
Proof. rewrite fold_left_zsum. lia. Qed.
Lemma steps_even lo h n : forall k, steps (map (fun i => Some (lo + INR i * h)) (seq k (n + 1))) = repeat h n.
Proof.
  induction n as [|n IH]; intros k; [reflexivity|]. specialize (IH (S k)). replace (S n + 1)%nat with (S (n + 1)) by lia. cbn [seq map]. replace (n + 1)%nat with (S n) in *   by lia. cbn [seq map] in *  .
  change (steps (Some (lo + INR k * h) :: Some (lo + INR (S k) * h) :: map (fun i : nat => Some (lo + INR i * h)) (seq (S (S k)) n))) with (lo + INR (S k) * h - (lo + INR k * h) :: steps (Some (lo + INR (S k) * h) :: map (fun i : nat => Some (lo + INR i * h)) (seq (S (S k)) n))). rewrite IH. cbn [repeat]. f_equal. rewrite S_INR. ring.
Qed.
(** As a density each bin holds its share of the samples, per decade; equal
    positive samples have no density. *)
Theorem C56_density : forall y n counts edges, y <> [] -> (forall x, In x y -> 0 <= x) -> (1 <= n)%nat ->
  bin_exponential y n = Ok (counts, edges) ->
  (In 0 y -> exists dens, bin_exponential_density y n = Ok (dens, edges) /\ length dens = n
     /\ (forall i d, nth_error dens i = Some d -> exists k, number_of (in_decades edges i) y k /\ d = INR k / INR (length y)))
  /\ (~ In 0 y -> (exists a b, In a y /\ In b y /\ a <> b) -> exists dens w, bin_exponential_density y n = Ok (dens, edges) /\ length dens = n /\ 0 < w
     /\ (forall i a b, nth_error edges i = Some (Some a) -> nth_error edges (i + 1) = Some (Some b) -> b - a = w)
     /\ (forall i d, nth_error dens i = Some d -> exists k, number_of (in_decades edges i) y k /\ d * w = INR k / INR (length y)))
  /\ (forall c, 0 < c -> (forall x, In x y -> x = c) -> bin_exponential_density y n = Err UndefinedBehaviour).
Proof.
  intros y n counts edges NE P N E. assert (LY : INR (length y) <> 0) by (apply not_0_INR; destruct y; [congruence|discriminate]).
  assert (LYZ : IZR (Z.of_nat (length y)) <> 0) by (rewrite <- INR_IZR_INZ; exact LY).
  unfold bin_exponential_density. rewrite E. cbn [bind]. rewrite fold_sum. split; [|split].
  - intros Z0. destruct (bins_zero y n NE P N Z0) as (top & c' & e' & E' & _ & EE & LC & NC & _ & SC). rewrite E in E'. injection E' as <- <-. rewrite SC, (proj2 (Reqb_false _ 0) LYZ).
    eexists. split; [destruct edges as [|[a|] es]; [discriminate EE|discriminate EE|reflexivity]|]. split; [rewrite map_length; exact LC|]. intros i d D. rewrite nth_error_map in D. destruct (nth_error counts i) as [c|] eqn:C; [|discriminate D]. cbn in D. injection D as <-. destruct (NC i c C) as (k & -> & K). exists k. split; [exact K|]. rewrite <- !INR_IZR_INZ. field. exact LY.
  - intros NZ (a & b & IA & IB & AB). destruct (bins_positive y n NE) as (lo & hi & c' & e' & E' & LH & A & B & C & EE & LC & NC & _ & SC); [|exact N|].
    { intros x X. destruct (P x X) as [Q|Q]; [exact Q|]. rewrite <- Q in X. destruct (NZ X). }
    rewrite E in E'. injection E' as <- <-. rewrite SC, (proj2 (Reqb_false _ 0) LYZ).
    assert (NP : 0 < INR n) by (apply lt_0_INR; lia).
    assert (HL : lo < hi). { destruct LH as [L|L]; [exact L|exfalso]. subst hi. pose proof (C a IA). pose proof (C b IB). apply AB. lra. }
    set (w := (hi - lo) / INR n) in *  . assert (W : 0 < w) by (apply Rdiv_lt_0_compat; lra).
    assert (ST : steps edges = repeat w n) by (rewrite EE; apply steps_even). rewrite ST.
    rewrite (CdrProofs.mapM_all _ (fun p : Z * R => IZR (fst p) / snd p / IZR (Z.of_nat (length y)))).
    2:{ intros (c & h) I. apply in_combine_r in I. apply repeat_spec in I. subst h. cbn [fst snd]. rewrite (proj2 (Reqb_false w 0)) by lra. reflexivity. }
    cbn [bind]. exists (map (fun p : Z * R => IZR (fst p) / snd p / IZR (Z.of_nat (length y))) (combine counts (repeat w n))), w.
    split; [rewrite EE; destruct n; [lia|reflexivity]|]. split; [rewrite map_length, combine_length, repeat_length; lia|]. split; [exact W|]. split.
    + intros i u v U V. assert (I : (i + 1 < n + 1)%nat) by (replace (n + 1)%nat with (length edges) by (rewrite EE, map_length, seq_length; reflexivity); apply nth_error_Some; rewrite V; discriminate).
      rewrite EE in U, V. rewrite (nth_error_seq_map (fun i : nat => Some (lo + INR i * w))) in U, V by lia. injection U as <-. injection V as <-. rewrite plus_INR. cbn [INR]. ring.
    + intros i d D. assert (I : (i < n)%nat) by (apply Nat.lt_le_trans with (length (map (fun p : Z * R => IZR (fst p) / snd p / IZR (Z.of_nat (length y))) (combine counts (repeat w n)))); [apply nth_error_Some; rewrite D; discriminate|rewrite map_length, combine_length, repeat_length; lia]).
      destruct (nth_error counts i) as [c|] eqn:CI; [|apply nth_error_None in CI; lia]. destruct (NC i c CI) as (k & EK & K).
      assert (EC : nth_error (combine counts (repeat w n)) i = Some (c, w)).
      { revert CI I. rewrite <- LC. clear. revert i. induction counts as [|x l IH]; intros [|i] CI I; try discriminate; cbn in *  ; [injection CI as <-; reflexivity|]. apply IH; [exact CI|lia]. }
      rewrite nth_error_map, EC in D. cbn [option_map fst snd] in D. injection D as <-. exists k. split; [exact K|]. rewrite EK, <- !INR_IZR_INZ. field. split; [exact LY|lra].
  - intros c CP AC. assert (PS : forall x, In x y -> 0 < x) by (intros x X; rewrite (AC x X); exact CP).
    destruct (bins_positive y n NE PS N) as (lo & hi & c' & e' & E' & LH & A & B & C & EE & LC & NC & _ & SC). rewrite E in E'. injection E' as <- <-. rewrite SC, (proj2 (Reqb_false _ 0) LYZ).
    assert (HL : hi = lo). { pose proof (AC _ A) as QA. pose proof (AC _ B) as QB. assert (Q : ln (Rpower 10 lo) = ln (Rpower 10 hi)) by congruence. rewrite !ln_Rpower in Q. pose proof ln10. apply (Rmult_eq_reg_r (ln 10)); lra. }
    subst hi. assert (ST : steps edges = repeat 0 n) by (rewrite EE; replace ((lo - lo) / INR n) with 0 by (unfold Rdiv; ring); apply steps_even). rewrite ST, EE. destruct n as [|n']; [lia|]. destruct counts as [|c0 cs]; [discriminate LC|].
    cbn [seq map repeat combine mapM fst snd Nat.add]. rewrite (proj2 (Reqb_true 0 0) eq_refl). reflexivity.
Qed.
Print Assumptions C56_density.
Theorem C56_rejects : forall n, bin_exponential [] n = Err ValueError
  /\ (forall y, (exists x, In x y /\ x < 0) -> bin_exponential y n = Err UndefinedBehaviour).
Proof.
  intros n. split; [reflexivity|]. intros y (x & X & N). unfold bin_exponential. assert (M : mapM log10 y = Err UndefinedBehaviour).
  { induction y as [|v y IH]; [destruct X|]. cbn [mapM]. unfold log10 at 1. destruct (Rltb v 0) eqn:V; [reflexivity|]. cbn [bind]. destruct X as [->|X]; [apply Rltb_false in V; lra|]. rewrite (IH X). reflexivity. }
  rewrite M. reflexivity.
Qed.
Print Assumptions C56_rejects.
Example C56_example : exists counts, bin_exponential [0; 5; 1 / 200] 3 = Ok (counts, [None; Some (-1); Some 0; Some 1]) /\ zsum counts = 3%Z.
Proof.
  assert (P : forall x, In x [0; 5; 1 / 200] -> 0 <= x) by (intros x [<-|[<-|[<-|[]]]]; lra).
  destruct (C56_counts [0; 5; 1 / 200] 3 ltac:(discriminate) P ltac:(lia)) as (counts & edges & E & _ & _ & _ & _ & SC).
  destruct (C56_edges [0; 5; 1 / 200] 3 counts edges ltac:(discriminate) P ltac:(lia) E) as (_ & Q). destruct (Q (or_introl eq_refl)) as (top & (TA & TB) & EE).
  assert (P1 : Rpower 10 1 = 10) by (apply Rpower_1; lra). assert (P0 : Rpower 10 0 = 1) by (apply Rpower_O; lra).
  assert (MONO : forall a b, a < b -> Rpower 10 a < Rpower 10 b) by (intros a b AB; apply Rpower_lt; lra).
  assert (top = 1%Z).
  { assert (top < 2)%Z. { destruct (Z_lt_ge_dec top 2) as [L|L]; [exact L|exfalso]. apply Z.ge_le, IZR_le in L. assert (Rpower 10 1 <= Rpower 10 (IZR top - 1)) by (apply Rle_Rpower; lra). destruct TB as [(x & [<-|[<-|[<-|[]]]] & B)|(_ & B)]; try lra. subst top. lra. }
    assert (0 < top)%Z. { destruct (Z_lt_ge_dec 0 top) as [L|L]; [exact L|exfalso]. apply Z.ge_le, IZR_le in L. assert (Rpower 10 (IZR top) <= Rpower 10 0) by (apply Rle_Rpower; lra). specialize (TA 5 (or_intror (or_introl eq_refl))). lra. }
    lia. }
  subst top. exists counts. rewrite E, EE. split; [reflexivity|exact SC].
Qed.
