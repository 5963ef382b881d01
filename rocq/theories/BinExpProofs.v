(** Lemmas about exponential bins. *)
From Coq Require Import ZArith Reals Bool List Lia Lra.
Import ListNotations.
From Verif Require Import Base Num RBool StatsModel StatsSpec StatsProofs MathModel MathSpec MathProofs CdrProofs CdrSearchProofs.
Local Open Scope R_scope.

Definition lg (x : R) : option R := if Reqb x 0 then None else Some (ln x / ln 10).
Lemma ln10 : 0 < ln 10.
Proof. rewrite <- ln_1. apply ln_increasing; lra. Qed.
Lemma log10_ok x : 0 <= x -> log10 x = Ok (lg x).
Proof. intros X. unfold log10, lg. rewrite (proj2 (Rltb_false x 0)) by exact X. reflexivity. Qed.
Lemma power_le e x : 0 < x -> (Rpower 10 e <= x <-> e <= ln x / ln 10).
Proof.
  intros X. pose proof ln10 as L. unfold Rpower. rewrite <- (exp_ln x) at 1 by exact X. split; intros H.
  - assert (E : e * ln 10 <= ln x) by (destruct H as [H|H]; [left; apply exp_lt_inv; exact H|right; apply exp_inv; exact H]).
    apply (Rmult_le_reg_r (ln 10)); [exact L|]. unfold Rdiv. rewrite Rmult_assoc, Rinv_l by lra. lra.
  - assert (E : e * ln 10 <= ln x) by (apply (Rmult_le_compat_r (ln 10)) in H; [|lra]; unfold Rdiv in H; rewrite Rmult_assoc, Rinv_l in H by lra; lra).
    destruct E as [E|E]; [left; apply exp_increasing; exact E|right; f_equal; exact E].
Qed.
Lemma power_pos e : 0 < Rpower 10 e.
Proof. unfold Rpower. apply exp_pos. Qed.
Lemma power_ge e x : 0 < x -> (x <= Rpower 10 e <-> ln x / ln 10 <= e).
Proof.
  intros X. split; intros H.
  - destruct (Rle_or_lt (ln x / ln 10) e) as [Q|Q]; [exact Q|]. assert (Rpower 10 e <= x) by (apply power_le; [exact X|lra]). assert (E : Rpower 10 e = x) by lra.
    rewrite <- E in Q. rewrite ln_Rpower in Q. unfold Rdiv in Q. rewrite Rmult_assoc, Rinv_r in Q by (pose proof ln10; lra). lra.
  - destruct (Rle_or_lt x (Rpower 10 e)) as [Q|Q]; [exact Q|]. assert (e <= ln x / ln 10) by (apply power_le; [exact X|lra]). assert (E : e = ln x / ln 10) by lra.
    rewrite E in Q. unfold Rpower in Q. replace (ln x / ln 10 * ln 10) with (ln x) in Q by (field; pose proof ln10; lra). rewrite exp_ln in Q by exact X. lra.
Qed.
Lemma ge_spec a x : 0 <= x -> (at_most a (lg x) = true <-> decade_ge a x).
Proof.
  intros X. unfold lg. destruct (Reqb x 0) eqn:E; [apply Reqb_true in E; subst x | apply Reqb_false in E]; destruct a as [e|]; cbn.
  - split; [discriminate|]. pose proof (power_pos e). lra.
  - split; [intros _; lra|reflexivity].
  - rewrite Rleb_true. symmetry. apply power_le. lra.
  - tauto.
Qed.
Lemma le_spec b x : 0 <= x -> (at_most (lg x) b = true <-> decade_le b x).
Proof.
  intros X. unfold lg. destruct (Reqb x 0) eqn:E; [apply Reqb_true in E; subst x | apply Reqb_false in E]; destruct b as [e|]; cbn.
  - split; [|reflexivity]. intros _. left. apply power_pos.
  - tauto.
  - rewrite Rleb_true. symmetry. apply power_ge. lra.
  - split; [discriminate|congruence].
Qed.
Lemma below_neg a b : below a b = negb (at_most b a).
Proof.
  destruct a as [x|], b as [y|]; cbn; try reflexivity. destruct (Rltb x y) eqn:E, (Rleb y x) eqn:F; try reflexivity; rewrite ?Rltb_true, ?Rltb_false, ?Rleb_true, ?Rleb_false in *  ; lra.
Qed.
Lemma lt_spec b x : 0 <= x -> (below (lg x) b = true <-> decade_lt b x).
Proof.
  intros X. rewrite below_neg. destruct (at_most b (lg x)) eqn:E.
  - apply (ge_spec b x X) in E. split; [discriminate|]. destruct b as [e|]; cbn in *  ; [lra|tauto].
  - split; [intros _|reflexivity]. destruct b as [e|]; cbn.
    + destruct (Rlt_or_le x (Rpower 10 e)) as [Q|Q]; [exact Q|]. apply (ge_spec (Some e) x X) in Q. congruence.
    + cbn in E. discriminate.
Qed.
Lemma at_most_trans a b c : at_most a b = true -> at_most b c = true -> at_most a c = true.
Proof. destruct a, b, c; cbn; try discriminate; try reflexivity. rewrite !Rleb_true. lra. Qed.
Lemma at_most_total a b : at_most a b = false -> at_most b a = true.
Proof. destruct a, b; cbn; try discriminate; try reflexivity. rewrite Rleb_true, Rleb_false. lra. Qed.
Lemma at_most_refl a : at_most a a = true.
Proof. destruct a; cbn; [apply Rleb_true; lra|reflexivity]. Qed.

(** Membership in a bin of exponents *)
Definition in_bin_b (edges : list (option R)) (i : nat) (v : option R) : bool :=
  match nth_error edges i, nth_error edges (i + 1) with
  | Some a, Some b => at_most a v && (if (i + 2 =? length edges)%nat then at_most v b else below v b)
  | _, _ => false
  end.
Lemma in_bin_spec edges i x : 0 <= x -> (in_bin_b edges i (lg x) = true <-> in_decades edges i x).
Proof.
  intros X. unfold in_bin_b, in_decades. destruct (nth_error edges i) as [a|] eqn:A; [|split; [discriminate|intros (a & b & Q & _); discriminate]].
  destruct (nth_error edges (i + 1)) as [b|] eqn:B; [|split; [discriminate|intros (a' & b & _ & Q & _); discriminate]].
  rewrite andb_true_iff, ge_spec by exact X. split.
  - intros (P & Q). exists a, b. split; [reflexivity|]. split; [reflexivity|]. split; [exact P|]. destruct (i + 2 =? length edges)%nat; [apply le_spec; assumption|apply lt_spec; assumption].
  - intros (a' & b' & EA & EB & P & Q). injection EA as <-. injection EB as <-. split; [exact P|]. destruct (i + 2 =? length edges)%nat; [apply le_spec; assumption|apply lt_spec; assumption].
Qed.
Lemma count_filter {X} (p q r : X -> bool) l : (forall x, (if p x then 1 else 0)%Z = ((if q x then 1 else 0) + (if r x then 1 else 0))%Z) ->
  (Z.of_nat (length (filter p l)) = Z.of_nat (length (filter q l)) + Z.of_nat (length (filter r l)))%Z.
Proof.
  intros H. induction l as [|x l IH]; [reflexivity|]. cbn [filter]. specialize (H x). destruct (p x), (q x), (r x); cbn [length]; lia.
Qed.
Lemma cons_nondecreasing a b l : nondecreasing (a :: b :: l) = true -> at_most a b = true /\ nondecreasing (b :: l) = true.
Proof.
  cbn [nondecreasing]. intros H. apply andb_true_iff in H. destruct H as (P & Q). split; [|exact Q]. rewrite below_neg, negb_involutive in P. exact P.
Qed.
Lemma hist_exp_nth y : forall edges, nondecreasing edges = true -> forall i, (i + 1 < length edges)%nat ->
  nth_error (differences (cumulative_exp y edges)) i = Some (Z.of_nat (length (filter (in_bin_b edges i) y))).
Proof.
  induction edges as [|a edges IH]; intros ND i L; [cbn in L; lia|]. destruct edges as [|b edges]; [cbn in L; lia|].
  apply cons_nondecreasing in ND. destruct ND as (AB & ND). destruct i as [|i].
  - assert (C : forall (closed : bool) v, (if (if closed then at_most v b else below v b) then 1 else 0)%Z
        = ((if below v a then 1 else 0) + (if at_most a v && (if closed then at_most v b else below v b) then 1 else 0))%Z).
    { intros closed v. rewrite !below_neg. destruct (at_most a v) eqn:E; [destruct closed; [destruct (at_most v b)|destruct (at_most b v)]; reflexivity|].
      destruct closed.
      - rewrite (at_most_trans v a b (at_most_total _ _ E) AB). reflexivity.
      - destruct (at_most b v) eqn:F; [|reflexivity]. exfalso. rewrite (at_most_trans a b v AB F) in E. discriminate. }
    destruct edges as [|c edges].
    + cbn [cumulative_exp differences nth_error]. unfold count_below. f_equal. rewrite (count_filter _ _ (in_bin_b [a; b] 0) y (fun v => C true v)). unfold in_bin_b. cbn. lia.
    + cbn [cumulative_exp differences nth_error]. unfold count_below. f_equal. rewrite (count_filter _ _ (in_bin_b (a :: b :: c :: edges) 0) y (fun v => C false v)). unfold in_bin_b. cbn. lia.
  - assert (E : nth_error (differences (cumulative_exp y (a :: b :: edges))) (S i) = nth_error (differences (cumulative_exp y (b :: edges))) i) by (destruct edges; reflexivity).
    rewrite E, IH; [|exact ND|cbn [length] in *  ; lia]. reflexivity.
Qed.

(** Sorted edges from first to last cover every value between them exactly once. *)
Lemma last_in_edges {X} (l : list X) d : l <> [] -> exists z, last l d = z /\ nth_error l (length l - 1) = Some z.
Proof.
  intros N. destruct (exists_last N) as (l' & z & ->). exists z. rewrite last_last. split; [reflexivity|]. rewrite app_length. cbn [length]. rewrite nth_error_app2 by lia. replace (length l' + 1 - 1 - length l')%nat with 0%nat by lia. reflexivity.
Qed.
Lemma edges_mono : forall edges, nondecreasing edges = true -> forall i j a b, (i <= j)%nat -> nth_error edges i = Some a -> nth_error edges j = Some b -> at_most a b = true.
Proof.
  induction edges as [|e edges IH]; intros ND i j a b L A B; [destruct i; discriminate|].
  assert (ND' : nondecreasing edges = true) by (destruct edges; [reflexivity|apply cons_nondecreasing in ND; apply ND]).
  destruct i as [|i], j as [|j]; try lia.
  - cbn in A, B. rewrite A in B. injection B as <-. apply at_most_refl.
  - cbn in A. injection A as <-. destruct edges as [|e2 edges]; [destruct j; discriminate|]. apply cons_nondecreasing in ND. destruct ND as (AB & _).
    eapply at_most_trans; [exact AB|]. cbn [nth_error] in B. apply (IH ND' 0%nat j e2 b); [lia|reflexivity|exact B].
  - cbn in A, B. apply (IH ND' i j a b); [lia|assumption|assumption].
Qed.
Lemma bin_exists : forall edges v, nondecreasing edges = true -> (2 <= length edges)%nat ->
  (exists a, nth_error edges 0 = Some a /\ at_most a v = true) -> (exists b, nth_error edges (length edges - 1) = Some b /\ at_most v b = true) ->
  exists i, in_bin_b edges i v = true.
Proof.
  induction edges as [|a edges IH]; intros v ND L (a' & A & AV) (z & Z0 & VZ); [cbn in L; lia|]. cbn in A. injection A as <-.
  destruct edges as [|b edges]; [cbn in L; lia|]. apply cons_nondecreasing in ND. destruct ND as (AB & ND).
  destruct edges as [|c edges].
  - exists 0%nat. unfold in_bin_b. cbn in *  . injection Z0 as <-. rewrite AV, VZ. reflexivity.
  - destruct (at_most b v) eqn:BV.
    + destruct (IH v ND) as (i & I); [cbn; lia|exists b; split; [reflexivity|exact BV]| |].
      { exists z. split; [|exact VZ]. rewrite <- Z0. cbn [length]. replace (S (S (S (length edges))) - 1)%nat with (S (S (S (length edges)) - 1)) by lia. reflexivity. }
      exists (S i). unfold in_bin_b in *  . cbn [nth_error Nat.add] in *  . destruct (nth_error (b :: c :: edges) i) as [u|]; [|discriminate]. destruct (nth_error (b :: c :: edges) (i + 1)) as [w|]; [|discriminate].
      exact I.
    + exists 0%nat. unfold in_bin_b. cbn [nth_error Nat.add length Nat.eqb]. rewrite AV, below_neg, BV. reflexivity.
Qed.
Lemma bin_unique edges v i j : nondecreasing edges = true -> in_bin_b edges i v = true -> in_bin_b edges j v = true -> i = j.
Proof.
  intros ND. assert (G : forall i j, (i < j)%nat -> in_bin_b edges i v = true -> in_bin_b edges j v = true -> False).
  { clear i j. intros i j L A B. unfold in_bin_b in *  . destruct (nth_error edges i) as [a|]; [|discriminate]. destruct (nth_error edges (i + 1)) as [b|] eqn:EB; [|discriminate].
    destruct (nth_error edges j) as [c|] eqn:EC; [|discriminate]. destruct (nth_error edges (j + 1)) as [d|] eqn:ED; [|discriminate].
    apply andb_true_iff in A, B. destruct A as (_ & A). destruct B as (B & _).
    assert (LJ : (j + 1 < length edges)%nat) by (apply nth_error_Some; rewrite ED; discriminate). destruct (i + 2 =? length edges)%nat eqn:Q; [apply Nat.eqb_eq in Q; lia|].
    rewrite below_neg in A. assert (at_most b v = true) by (eapply at_most_trans; [exact (edges_mono edges ND (i + 1) j b c ltac:(lia) EB EC)|exact B]). rewrite H in A. discriminate. }
  intros A B. destruct (Nat.lt_trichotomy i j) as [L|[E|L]]; [destruct (G i j L A B)|exact E|destruct (G j i L B A)].
Qed.
Lemma cumulative_exp_length y edges : length (cumulative_exp y edges) = length edges.
Proof. induction edges as [|e [|e2 l] IH]; cbn [cumulative_exp length] in *  ; auto. Qed.
Lemma cumulative_exp_last y : forall edges z d, nth_error edges (length edges - 1) = Some z -> (1 <= length edges)%nat -> last (cumulative_exp y edges) d = count_below y true z.
Proof.
  induction edges as [|e edges IH]; intros z d Z0 L; [cbn in L; lia|]. destruct edges as [|e2 edges]; [cbn in Z0; injection Z0 as <-; reflexivity|].
  change (cumulative_exp y (e :: e2 :: edges)) with (count_below y false e :: cumulative_exp y (e2 :: edges)).
  destruct (cumulative_exp y (e2 :: edges)) as [|c cs] eqn:E; [pose proof (cumulative_exp_length y (e2 :: edges)) as Q; rewrite E in Q; discriminate Q|].
  change (last (count_below y false e :: c :: cs) d) with (last (c :: cs) d). apply IH; [|cbn; lia]. rewrite <- Z0. cbn [length]. replace (S (S (length edges)) - 1)%nat with (S (S (length edges) - 1)) by lia. reflexivity.
Qed.
Lemma filter_all {X} (p : X -> bool) l : (forall x, In x l -> p x = true) -> filter p l = l.
Proof. induction l as [|x l IH]; intros H; [reflexivity|]. cbn. rewrite H by (left; reflexivity). f_equal. apply IH. intros; apply H; right; assumption. Qed.
Lemma filter_none {X} (p : X -> bool) l : (forall x, In x l -> p x = false) -> filter p l = [].
Proof. induction l as [|x l IH]; intros H; [reflexivity|]. cbn. rewrite H by (left; reflexivity). apply IH. intros; apply H; right; assumption. Qed.
Lemma hist_exp_total y edges a z : nondecreasing edges = true -> (2 <= length edges)%nat -> nth_error edges 0 = Some a -> nth_error edges (length edges - 1) = Some z ->
  (forall v, In v y -> at_most a v = true /\ at_most v z = true) -> zsum (differences (cumulative_exp y edges)) = Z.of_nat (length y).
Proof.
  intros ND L A Z0 V. destruct edges as [|e0 [|e1 edges]]; cbn [length] in L; try lia. cbn in A. injection A as <-.
  assert (H : hd_error (cumulative_exp y (e0 :: e1 :: edges)) = Some 0%Z).
  { cbn [cumulative_exp hd_error]. f_equal. unfold count_below. rewrite filter_none; [reflexivity|]. intros v I. rewrite below_neg. destruct (V v I) as (-> & _). reflexivity. }
  rewrite (zsum_differences _ 0%Z (Z.of_nat (length y)) eq_refl H); [lia|]. rewrite (cumulative_exp_last y _ z _ Z0) by (cbn; lia). unfold count_below. rewrite filter_all; [reflexivity|]. intros v I. apply (V v I).
Qed.
Lemma number_filter {X} (P : X -> Prop) (p : X -> bool) l : (forall x, In x l -> (p x = true <-> P x)) -> number_of P l (length (filter p l)).
Proof.
  induction l as [|x l IH]; intros H; [constructor|]. cbn [filter]. pose proof (H x (or_introl eq_refl)) as Q. destruct (p x).
  - cbn [length]. constructor; [apply Q; reflexivity|]. apply IH. intros; apply H; right; assumption.
  - constructor; [intros C; apply Q in C; discriminate|]. apply IH. intros; apply H; right; assumption.
Qed.
Lemma filter_map_length {X Y} (f : X -> Y) (p : Y -> bool) l : length (filter p (map f l)) = length (filter (fun x => p (f x)) l).
Proof. induction l as [|x l IH]; [reflexivity|]. cbn. destruct (p (f x)); cbn; lia. Qed.

(** All that follows from sorted edges around the samples *)
Lemma binned y edges a z : (forall x, In x y -> 0 <= x) -> nondecreasing edges = true -> (2 <= length edges)%nat -> nth_error edges 0 = Some a -> nth_error edges (length edges - 1) = Some z ->
  (forall x, In x y -> at_most a (lg x) = true /\ at_most (lg x) z = true) ->
  exists counts, histogram_exp (map lg y) edges = Ok counts /\ length counts = (length edges - 1)%nat
    /\ (forall i c, nth_error counts i = Some c -> exists k, c = Z.of_nat k /\ number_of (in_decades edges i) y k)
    /\ (forall x, In x y -> exists! i, in_decades edges i x) /\ zsum counts = Z.of_nat (length y).
Proof.
  intros P ND L A Z0 V. unfold histogram_exp. rewrite ND. eexists. split; [reflexivity|].
  assert (LC : length (differences (cumulative_exp (map lg y) edges)) = (length edges - 1)%nat) by (rewrite differences_length, cumulative_exp_length; reflexivity).
  split; [exact LC|]. split; [|split].
  - intros i c C. assert (I : (i < length edges - 1)%nat) by (rewrite <- LC; apply nth_error_Some; rewrite C; discriminate).
    rewrite hist_exp_nth in C by (try exact ND; lia). injection C as <-. rewrite filter_map_length. eexists. split; [reflexivity|]. apply number_filter. intros x X. apply in_bin_spec. exact (P x X).
  - intros x X. destruct (V x X) as (VA & VZ). destruct (bin_exists edges (lg x) ND L) as (i & I); [exists a; auto|exists z; auto|]. exists i. split; [apply in_bin_spec; [exact (P x X)|exact I]|].
    intros j J. apply in_bin_spec in J; [|exact (P x X)]. exact (bin_unique edges (lg x) i j ND I J).
  - rewrite (hist_exp_total (map lg y) edges a z ND L A Z0); [rewrite map_length; reflexivity|]. intros v I. apply in_map_iff in I. destruct I as (x & <- & I). exact (V x I).
Qed.
