From Coq Require Import List ZArith Bool Lia Sorted Permutation Reals Lra Psatz.
Import ListNotations.
From Verif Require Import Base Num RBool LinesProofs StatsModel StatsSpec.
Local Open Scope num_scope.
Local Open Scope result_scope.


#[global] Instance NumTotalR : NumTotal R.
Proof.
  split; cbn; intros.
  - apply Reqb_true.
  - apply Rltb_false; lra.
  - rewrite Rltb_true in * . lra.
  - rewrite !Rltb_true. lra.
Qed.

(** Integers (ADC codes, bit values). *)
#[global] Instance NumZ : Num Z := {|
  nadd := Z.add; nsub := Z.sub; nmul := Z.mul; ndiv := Z.div;
  nlt := Z.ltb; nle := Z.leb; neq := Z.eqb; nofZ := fun z => z; nhalf := 0%Z |}.
#[global] Instance NumTotalZ : NumTotal Z.
Proof.
  split; cbn; intros.
  - apply Z.eqb_eq.
  - apply Z.ltb_irrefl.
  - rewrite Z.ltb_lt in * . lia.
  - rewrite !Z.ltb_lt. lia.
Qed.


Section Exact.
Context {A : Type} `{HT : NumTotal A}.

Definition get0 (d : list (A * Z)) v : Z := match dict_get d v with Ok c => c | Err _ => 0%Z end.

Lemma eqb_refl (v : A) : (v =. v) = true.
Proof. apply neq_spec. reflexivity. Qed.
Lemma eqb_ne (x v : A) : x <> v -> (x =. v) = false.
Proof. intros Hn. destruct (x =. v) eqn:E; [|reflexivity]. apply neq_spec in E. contradiction. Qed.
Lemma eq_dec (x v : A) : x = v \/ x <> v.
Proof. destruct (x =. v) eqn:E; [left; apply neq_spec; exact E|right]. intros ->. rewrite eqb_refl in E. discriminate. Qed.

Lemma incr_keys (d : list (A * Z)) e v : In v (map fst (dict_incr d e)) <-> v = e \/ In v (map fst d).
Proof.
  induction d as [|[k c] d IH]; cbn [dict_incr map fst].
  - cbn. split; intros [->|[]]; auto.
  - destruct (k =. e) eqn:E; cbn [map fst In].
    + apply neq_spec in E. subst k. split; [intros [->|Hin]; auto|intros [->|[->|Hin]]; auto].
    + rewrite IH. tauto.
Qed.

Lemma incr_nodup (d : list (A * Z)) e : NoDup (map fst d) -> NoDup (map fst (dict_incr d e)).
Proof.
  induction d as [|[k c] d IH]; intros Hn; cbn [dict_incr map fst].
  - constructor; [intros []|constructor].
  - inversion Hn as [|? ? Hk Hn']; subst. destruct (k =. e) eqn:E; cbn [map fst].
    + constructor; assumption.
    + constructor; [|apply IH; exact Hn']. rewrite incr_keys. intros [->|Hin]; [|contradiction].
      rewrite eqb_refl in E. discriminate.
Qed.

Lemma incr_get (d : list (A * Z)) e v : get0 (dict_incr d e) v = (get0 d v + (if e =. v then 1 else 0))%Z.
Proof.
  unfold get0. induction d as [|[k c] d IH]; cbn [dict_incr dict_get].
  - destruct (e =. v); reflexivity.
  - destruct (k =. e) eqn:E; cbn [dict_get].
    + apply neq_spec in E. subst k. destruct (e =. v); lia.
    + destruct (k =. v) eqn:E2; [|exact IH]. apply neq_spec in E2. subst k.
      destruct (e =. v) eqn:E3; [|lia]. apply neq_spec in E3. subst e. rewrite eqb_refl in E. discriminate.
Qed.

Lemma get_in (d : list (A * Z)) v : In v (map fst d) -> dict_get d v = Ok (get0 d v).
Proof.
  unfold get0. induction d as [|[k c] d IH]; cbn [map fst In dict_get]; [intros []|].
  intros [->|Hin]; [rewrite eqb_refl; reflexivity|].
  destruct (k =. v); [reflexivity|]. apply IH. exact Hin.
Qed.

Lemma fold_dict (y : list A) : forall d, NoDup (map fst d) ->
  let d' := fold_left dict_incr y d in
  NoDup (map fst d') /\ (forall v, In v (map fst d') <-> In v y \/ In v (map fst d)) /\
  (forall v, get0 d' v = (get0 d v + occurrences v y)%Z).
Proof.
  induction y as [|e y IH]; intros d Hn; cbn [fold_left]; cbv zeta.
  - split; [exact Hn|]. split; [intros v; cbn; tauto|]. intros v. unfold occurrences. cbn. lia.
  - destruct (IH (dict_incr d e) (incr_nodup d e Hn)) as (H1 & H2 & H3).
    split; [exact H1|]. split.
    + intros v. rewrite H2, incr_keys. cbn [In]. split; intros [?|?]; auto; destruct H0; auto.
    + intros v. rewrite H3, incr_get. unfold occurrences. cbn [filter].
      destruct (e =. v); cbn [length]; lia.
Qed.

Definition Lt (x y : A) : Prop := (x <. y) = true.

Lemma insert_perm (x : A) l : Permutation (x :: l) (insert x l).
Proof.
  induction l as [|y l IH]; cbn [insert]; [reflexivity|].
  destruct (x <. y); [reflexivity|]. rewrite perm_swap. constructor. exact IH.
Qed.

Lemma insert_sorted (x : A) l : ~ In x l -> StronglySorted Lt l -> StronglySorted Lt (insert x l).
Proof.
  induction l as [|y l IH]; intros Hn Hs; cbn [insert]; [repeat constructor|].
  inversion Hs as [|? ? Hs' Hall]; subst. destruct (x <. y) eqn:E.
  - constructor; [exact Hs|]. constructor; [exact E|].
    apply Forall_impl with (2 := Hall). intros z Hz. apply nlt_tr with y; assumption.
  - constructor; [apply IH; [intros Hin; apply Hn; right; exact Hin|exact Hs']|].
    assert (Hyx : Lt y x).
    { destruct (nlt_tot x y) as [Hlt|Hlt]; [intros ->; apply Hn; left; reflexivity|congruence|exact Hlt]. }
    rewrite Forall_forall in Hall |- * . intros z Hz.
    apply (Permutation_in z (Permutation_sym (insert_perm x l))) in Hz.
    destruct Hz as [<-|Hz]; [exact Hyx|apply Hall; exact Hz].
Qed.

Lemma sorted_spec (l : list A) : NoDup l -> Permutation l (sorted l) /\ StronglySorted Lt (sorted l).
Proof.
  unfold sorted.
  assert (Hg : forall l acc, NoDup (l ++ acc) -> StronglySorted Lt acc ->
     Permutation (l ++ acc) (fold_left (fun acc x => insert x acc) l acc) /\
     StronglySorted Lt (fold_left (fun acc x => insert x acc) l acc)).
  { induction l0 as [|x l0 IH]; intros acc Hn Hs; cbn [fold_left app]; [split; [reflexivity|exact Hs]|].
    inversion Hn as [|? ? Hx Hn']; subst.
    assert (P : Permutation (x :: l0 ++ acc) (l0 ++ insert x acc)).
    { rewrite <- insert_perm. apply Permutation_middle. }
    destruct (IH (insert x acc)) as [P2 S2].
    - apply Permutation_NoDup with (1 := P). exact Hn.
    - apply insert_sorted; [|exact Hs]. intros Hin. apply Hx. apply in_or_app. right; exact Hin.
    - split; [rewrite P; exact P2|exact S2]. }
  intros Hn. destruct (Hg l []) as [P S].
  - rewrite app_nil_r. exact Hn.
  - constructor.
  - rewrite app_nil_r in P. split; assumption.
Qed.

Lemma mapM_ok {X Y} (f : X -> result Y) (g : X -> Y) l : (forall x, In x l -> f x = Ok (g x)) ->
  mapM f l = Ok (map g l).
Proof.
  induction l as [|x l IH]; intros Hf; cbn [mapM map]; [reflexivity|].
  rewrite Hf by (left; reflexivity). rewrite IH by (intros; apply Hf; right; assumption). reflexivity.
Qed.

Lemma sum_indicator (e : A) bins : NoDup bins -> In e bins ->
  zsum (map (fun v => if e =. v then 1 else 0)%Z bins) = 1%Z.
Proof.
  induction bins as [|b bins IH]; intros Hn Hin; [destruct Hin|].
  inversion Hn as [|? ? Hb Hn']; subst. cbn [map zsum fold_right].
  destruct Hin as [->|Hin].
  - rewrite eqb_refl.
    assert (Hz : zsum (map (fun v => if e =. v then 1 else 0)%Z bins) = 0%Z).
    { clear IH Hn Hn'. induction bins as [|c bins IH]; [reflexivity|]. cbn [map zsum fold_right].
      rewrite eqb_ne by (intros ->; apply Hb; left; reflexivity).
      unfold zsum in IH. rewrite IH; [reflexivity|]. intros Hin; apply Hb; right; exact Hin. }
    unfold zsum in Hz. rewrite Hz. reflexivity.
  - rewrite eqb_ne by (intros ->; contradiction). unfold zsum in IH. rewrite (IH Hn' Hin). reflexivity.
Qed.

Lemma zsum_add {X} (f g : X -> Z) l : zsum (map (fun x => f x + g x)%Z l) = (zsum (map f l) + zsum (map g l))%Z.
Proof. induction l as [|x l IH]; cbn [map zsum fold_right] in * ; [reflexivity|]. unfold zsum in IH. lia. Qed.

Lemma sum_occurrences (y bins : list A) : NoDup bins -> (forall e, In e y -> In e bins) ->
  zsum (map (fun v => occurrences v y) bins) = Z.of_nat (length y).
Proof.
  intros Hn. induction y as [|e y IH]; intros Hin.
  - unfold occurrences. cbn [filter length]. induction bins; [reflexivity|].
    cbn [map zsum fold_right]. inversion Hn; subst. unfold zsum in IHbins. rewrite IHbins; [reflexivity|assumption|].
    intros ? [].
  - rewrite (map_ext (fun v => occurrences v (e :: y))
      (fun v => ((if e =. v then 1 else 0) + occurrences v y)%Z)).
    + rewrite zsum_add, sum_indicator, IH by (try assumption; try (intros; apply Hin); cbn; auto).
      cbn [length]. lia.
    + intros v. unfold occurrences. cbn [filter]. destruct (e =. v); cbn [length]; lia.
Qed.

Lemma bin_exact_spec (y : list A) : exists bins,
  bin_exact y = Ok (map (fun v => occurrences v y) bins, bins) /\
  StronglySorted Lt bins /\ (forall v, In v bins <-> In v y) /\
  zsum (map (fun v => occurrences v y) bins) = Z.of_nat (length y).
Proof.
  unfold bin_exact. destruct (fold_dict y [] (NoDup_nil _)) as (H1 & H2 & H3).
  set (d := fold_left dict_incr y []) in * .
  destruct (sorted_spec (map fst d) H1) as [P S]. exists (sorted (map fst d)).
  assert (Hin : forall v, In v (sorted (map fst d)) <-> In v y).
  { intros v. split; intros Hv.
    - apply (Permutation_in v (Permutation_sym P)) in Hv. apply H2 in Hv. destruct Hv as [Hv|[]]. exact Hv.
    - apply (Permutation_in v P). apply H2. left; exact Hv. }
  rewrite (mapM_ok (dict_get d) (fun v => occurrences v y)).
  - split; [reflexivity|]. split; [exact S|]. split; [exact Hin|].
    apply sum_occurrences.
    + apply Permutation_NoDup with (1 := P). exact H1.
    + intros e He. apply Hin. exact He.
  - intros v Hv. rewrite get_in.
    + f_equal. rewrite H3. reflexivity.
    + apply (Permutation_in v (Permutation_sym P)). exact Hv.
Qed.
End Exact.

(** ** histograms over the reals *)
Local Close Scope num_scope.
Local Open Scope R_scope.

Lemma range_spec frac y : 0 < frac -> y <> [] ->
  exists lo hi, linear_range frac y = Ok (lo, hi) /\ lo < hi /\ forall x, In x y -> lo <= x <= hi.
Proof.
  intros Hf Hne. unfold linear_range.
  destruct (py_min_R y Hne) as (mn & -> & Hin & Hmn). destruct (py_max_R y Hne) as (mx & -> & _ & Hmx).
  cbn [bind]. cbn.
  destruct (Reqb mn mx) eqn:E; [apply Reqb_true in E|apply Reqb_false in E].
  - subst mx. destruct (Reqb mn 0) eqn:E0; [apply Reqb_true in E0|apply Reqb_false in E0].
    + exists (-1), 1. split; [reflexivity|]. split; [lra|]. intros x Hx.
      specialize (Hmn x Hx). specialize (Hmx x Hx). lra.
    + do 2 eexists. split; [reflexivity|].
      set (a := if Rltb mn 0 then 0 - mn else mn).
      assert (Ha : 0 < a).
      { unfold a. destruct (Rltb mn 0) eqn:E1; [apply Rltb_true in E1|apply Rltb_false in E1]; lra. }
      split; [nra|]. intros x Hx. specialize (Hmn x Hx). specialize (Hmx x Hx). nra.
  - exists mn, mx. split; [reflexivity|]. split.
    + specialize (Hmx mn Hin). lra.
    + intros x Hx. split; auto.
Qed.

Lemma linspace_R a b n : (1 <= n)%nat ->
  linspace a b (n + 1) = map (fun i => a + INR i * ((b - a) / INR n)) (seq 0 (n + 1)).
Proof.
  intros Hn. destruct n as [|k]; [lia|]. replace (S k + 1)%nat with (S (S k)) by lia.
  cbn [linspace]. rewrite (seq_S (S k) 0), map_app.
  assert (E : @nofZ R _ (Z.of_nat (S k)) = INR (S k)) by (cbn [nofZ NumR]; rewrite <- INR_IZR_INZ; reflexivity).
  rewrite E. f_equal.
  - apply map_ext. intros i. cbn [nofZ nmul nadd nsub ndiv NumR]. rewrite <- INR_IZR_INZ. ring.
  - cbn [map]. replace (0 + S k)%nat with (S k) by lia. f_equal.
    assert (INR (S k) <> 0) by (apply not_0_INR; lia). field. assumption.
Qed.

Lemma sorted_map_seq (f : nat -> R) : (forall i j, (i < j)%nat -> f i < f j) ->
  forall n k, StronglySorted Rlt (map f (seq k n)).
Proof.
  intros Hf. induction n as [|n IH]; intros k; cbn [seq map]; [constructor|].
  constructor; [apply IH|]. apply Forall_forall. intros x Hx. apply in_map_iff in Hx.
  destruct Hx as (i & <- & Hi). apply in_seq in Hi. apply Hf. lia.
Qed.

Lemma sorted_edges_ok (l : list R) : StronglySorted Rlt l -> edges_ok l = true.
Proof.
  induction 1 as [|a l Hs IH Hall]; [reflexivity|].
  destruct l as [|b l]; [reflexivity|]. cbn [edges_ok].
  inversion Hall as [|? ? Hab _]; subst. cbn [nlt NumR].
  rewrite (proj2 (Rltb_false b a)) by lra. exact IH.
Qed.

Lemma count_split (f g h : R -> bool) y : (forall x, (if f x then 1 else 0)%Z = ((if g x then 1 else 0) + (if h x then 1 else 0))%Z) ->
  count_if f y = (count_if g y + count_if h y)%Z.
Proof.
  intros Hx. unfold count_if. induction y as [|x y IH]; [reflexivity|]. cbn [filter].
  specialize (Hx x). destruct (f x), (g x), (h x); cbn [length]; try lia.
Qed.

Lemma count_all (f : R -> bool) y : (forall x, In x y -> f x = true) -> count_if f y = Z.of_nat (length y).
Proof.
  unfold count_if. induction y as [|x y IH]; intros Hf; [reflexivity|]. cbn [filter].
  rewrite Hf by (left; reflexivity). cbn [length]. rewrite Nat2Z.inj_succ, IH by (intros; apply Hf; right; assumption).
  lia.
Qed.
Lemma count_none (f : R -> bool) y : (forall x, In x y -> f x = false) -> count_if f y = 0%Z.
Proof.
  unfold count_if. induction y as [|x y IH]; intros Hf; [reflexivity|]. cbn [filter].
  rewrite Hf by (left; reflexivity). apply IH. intros; apply Hf; right; assumption.
Qed.


Lemma cumulative_length y edges : length (cumulative (A := R) y edges) = length edges.
Proof. induction edges as [|e [|e2 l] IH]; cbn [cumulative length] in * ; auto. Qed.

Lemma differences_length l : length (differences l) = (length l - 1)%nat.
Proof. induction l as [|a [|b l] IH]; cbn [differences length] in * ; try reflexivity. rewrite IH. lia. Qed.

Lemma hist_nth y : forall edges, StronglySorted Rlt edges -> forall i, (i + 1 < length edges)%nat ->
  nth_error (differences (cumulative y edges)) i = Some (count_if (in_bin edges i) y).
Proof.
  induction edges as [|a edges IH]; intros Hs i Hi; [cbn in Hi; lia|].
  destruct edges as [|b edges]; [cbn in Hi; lia|].
  inversion Hs as [|? ? Hs' Hall]; subst. inversion Hall as [|? ? Hab _]; subst.
  destruct i as [|i].
  - destruct edges as [|c edges].
    + cbn [cumulative differences nth_error]. f_equal.
      rewrite (count_split (fun x => nle x b) (fun x => nlt x a) (in_bin [a; b] 0)); [cbv beta; lia|].
      intros x. unfold in_bin. cbn. 
      destruct (Rleb x b) eqn:E1, (Rltb x a) eqn:E2, (Rleb a x) eqn:E3; cbn [andb]; try reflexivity;
        rewrite ?Rleb_true, ?Rleb_false, ?Rltb_true, ?Rltb_false in * ; lra.
    + cbn [cumulative differences nth_error]. f_equal.
      rewrite (count_split (fun x => nlt x b) (fun x => nlt x a) (in_bin (a :: b :: c :: edges) 0)); [cbv beta; lia|].
      intros x. unfold in_bin. cbn.
      destruct (Rltb x b) eqn:E1, (Rltb x a) eqn:E2, (Rleb a x) eqn:E3; cbn [andb]; try reflexivity;
        rewrite ?Rleb_true, ?Rleb_false, ?Rltb_true, ?Rltb_false in * ; lra.
  - assert (E : nth_error (differences (cumulative y (a :: b :: edges))) (S i) =
                nth_error (differences (cumulative y (b :: edges))) i).
    { cbn [cumulative]. destruct edges; reflexivity. }
    rewrite E, IH; [|exact Hs'|cbn [length] in * ; lia].
    f_equal. 
Qed.

Lemma zsum_differences l a z : differences l = differences l -> hd_error l = Some a -> last l a = z ->
  zsum (differences l) = (z - a)%Z.
Proof.
  intros _. revert a. induction l as [|x l IH]; intros a Hh Hl; [discriminate|].
  injection Hh as ->. destruct l as [|b l].
  - cbn in * . subst. lia.
  - change (last (a :: b :: l) a) with (last (b :: l) a) in Hl.
    assert (Hl2 : last (b :: l) b = z).
    { rewrite <- Hl. clear. revert b. induction l as [|c l IH]; intros b; [reflexivity|].
      change (last (c :: l) b = last (c :: l) a). clear IH. revert c. induction l as [|d l IH]; intros c; [reflexivity|].
      change (last (d :: l) b = last (d :: l) a). apply IH. }
    specialize (IH b eq_refl Hl2).
    change (zsum (differences (a :: b :: l))) with ((b - a) + zsum (differences (b :: l)))%Z.
    rewrite IH. lia.
Qed.

Lemma cumulative_ends y edges lo hi : hd_error edges = Some lo -> last edges lo = hi -> (2 <= length edges)%nat ->
  (forall x, In x y -> lo <= x <= hi) ->
  hd_error (cumulative y edges) = Some 0%Z /\ last (cumulative y edges) 0%Z = Z.of_nat (length y).
Proof.
  intros Hh Hl Hlen Hx. destruct edges as [|e [|e2 l]]; cbn [length] in Hlen; try lia.
  injection Hh as ->. split.
  - cbn [cumulative hd_error]. rewrite count_none; [reflexivity|]. intros x Hin.
    cbn. apply Rltb_false. apply Hx; exact Hin.
  - assert (G : forall l e0 d, last (e0 :: l) d = hi -> last (cumulative y (e0 :: l)) 0%Z = Z.of_nat (length y)).
    { clear - Hx. induction l as [|e3 l IH]; intros e0 d Hl.
      - cbn in * . subst e0. apply count_all. intros x Hin. apply Rleb_true. apply Hx; exact Hin.
      - change (cumulative y (e0 :: e3 :: l)) with (count_if (fun x => nlt x e0) y :: cumulative y (e3 :: l)).
        specialize (IH e3 d Hl).
        destruct (cumulative y (e3 :: l)) eqn:E; [destruct l; discriminate|]. exact IH. }
    change (cumulative y (lo :: e2 :: l)) with (count_if (fun x => nlt x lo) y :: cumulative y (e2 :: l)).
    specialize (G l e2 lo Hl).
    destruct (cumulative y (e2 :: l)) eqn:E; [destruct l; discriminate|]. exact G.
Qed.

Lemma unique_bin (edges : list R) lo hi x : StronglySorted Rlt edges -> (2 <= length edges)%nat ->
  hd_error edges = Some lo -> last edges lo = hi -> lo <= x <= hi ->
  exists! i, in_bin edges i x = true.
Proof.
  intros Hs Hlen. revert lo. induction Hs as [|a l Hs IH Hall]; intros lo Hh Hl Hx; [cbn in Hlen; lia|].
  injection Hh as ->. destruct l as [|b l]; [cbn in Hlen; lia|].
  inversion Hall as [|? ? Hab Hall']; subst. change (last (lo :: b :: l) lo) with (last (b :: l) lo) in Hx.
  destruct l as [|c l].
  - cbn in Hx. exists 0%nat. unfold in_bin. split.
    + cbn. rewrite (proj2 (Rleb_true lo x)), (proj2 (Rleb_true x b)) by lra. reflexivity.
    + intros j Hj. destruct j as [|[|j]]; [reflexivity| |].
      * discriminate.
      * destruct j; discriminate.
  - assert (Hlb : last (b :: c :: l) b = last (b :: c :: l) lo).
    { change (last (c :: l) b = last (c :: l) lo). clear. revert c. induction l as [|d l IH]; intros c; [reflexivity|].
      change (last (d :: l) b = last (d :: l) lo). apply IH. }
    assert (Hnext : forall j z, in_bin (lo :: b :: c :: l) (S j) z = in_bin (b :: c :: l) j z) by reflexivity.
    assert (Hge : forall j, in_bin (b :: c :: l) j x = true -> b <= x).
    { intros j Hj. unfold in_bin in Hj. destruct (nth_error (b :: c :: l) j) as [e|] eqn:Ee; [|discriminate].
      destruct (nth_error (b :: c :: l) (j + 1)); [|discriminate].
      apply andb_true_iff in Hj. destruct Hj as [Hj _]. apply Rleb_true in Hj.
      destruct j as [|j]; [injection Ee as <-; exact Hj|].
      inversion Hs as [|? ? _ Hallb]; subst. rewrite Forall_forall in Hallb.
      assert (b < e) by (apply Hallb; apply (nth_error_In (c :: l) j); exact Ee).
      lra. }
    destruct (Rlt_le_dec x b) as [Hlt|Hle].
    + exists 0%nat. split.
      * unfold in_bin. cbn. rewrite (proj2 (Rleb_true lo x)), (proj2 (Rltb_true x b)) by lra. reflexivity.
      * intros [|j] Hj; [reflexivity|]. rewrite Hnext in Hj. apply Hge in Hj. lra.
    + change (last (lo :: b :: c :: l) lo) with (last (b :: c :: l) lo) in IH.
      destruct (IH ltac:(cbn [length]; lia) b eq_refl Hlb) as (i & Hi & Hu); [lra|].
      exists (S i). split; [rewrite Hnext; exact Hi|].
      intros [|j] Hj.
      * unfold in_bin in Hj. cbn in Hj. apply andb_true_iff in Hj. destruct Hj as [_ Hj]. apply Rltb_true in Hj. lra.
      * f_equal. apply Hu. rewrite <- Hnext. exact Hj.
Qed.

Lemma last_map_seq (f : nat -> R) n d : last (map f (seq 0 (n + 1))) d = f n.
Proof. replace (n + 1)%nat with (S n) by lia. rewrite seq_S, map_app. cbn [map]. rewrite last_last. reflexivity. Qed.

Lemma nth_error_seq n : forall s i k, nth_error (seq s n) i = Some k -> k = (s + i)%nat.
Proof.
  induction n as [|n IH]; intros s i k Hk; [destruct i; discriminate|].
  destruct i as [|i]; cbn in Hk; [injection Hk as <-; lia|]. apply IH in Hk. lia.
Qed.

Lemma bin_linear_spec frac y n : 0 < frac -> y <> [] -> (1 <= n)%nat ->
  exists counts edges lo hi, bin_linear frac y n = Ok (counts, edges) /\
    length edges = (n + 1)%nat /\ length counts = n /\ StronglySorted Rlt edges /\
    hd_error edges = Some lo /\ last edges lo = hi /\
    (forall i e, nth_error edges i = Some e -> e = lo + INR i * ((hi - lo) / INR n)) /\
    (forall x, In x y -> lo <= x <= hi) /\
    (forall i, (i < n)%nat -> nth_error counts i = Some (count_if (in_bin edges i) y)) /\
    (forall x, In x y -> exists! i, in_bin edges i x = true) /\
    zsum counts = Z.of_nat (length y).
Proof.
  intros Hf Hne Hn. unfold bin_linear.
  destruct (range_spec frac y Hf Hne) as (lo & hi & -> & Hlt & Hin). cbn [bind fst snd].
  rewrite (linspace_R lo hi n Hn). set (f := fun i => lo + INR i * ((hi - lo) / INR n)).
  assert (Hn0 : 0 < INR n) by (apply lt_0_INR; lia).
  assert (Hstep : 0 < (hi - lo) / INR n) by (apply Rdiv_lt_0_compat; lra).
  assert (Hmono : forall i j, (i < j)%nat -> f i < f j).
  { intros i j Hij. unfold f. apply lt_INR in Hij. nra. }
  assert (Hs : StronglySorted Rlt (map f (seq 0 (n + 1)))) by (apply sorted_map_seq; exact Hmono).
  set (edges := map f (seq 0 (n + 1))) in * .
  assert (Hlen : length edges = (n + 1)%nat) by (unfold edges; rewrite map_length, seq_length; reflexivity).
  assert (Hhd : hd_error edges = Some lo).
  { unfold edges. replace (n + 1)%nat with (S n) by lia. cbn [seq map hd_error]. unfold f. cbn [INR].
    f_equal. ring. }
  assert (Hlast : last edges lo = hi).
  { unfold edges. rewrite last_map_seq. unfold f. field. lra. }
  unfold histogram. rewrite (sorted_edges_ok edges Hs). cbn [bind].
  do 4 eexists. split; [reflexivity|]. split; [exact Hlen|]. split; [|split; [exact Hs|]].
  { rewrite differences_length, cumulative_length, Hlen. lia. }
  split; [exact Hhd|]. split; [exact Hlast|]. split.
  { intros i e He. unfold edges in He. rewrite nth_error_map in He.
    destruct (nth_error (seq 0 (n + 1)) i) as [k|] eqn:Ek; [|discriminate]. cbn in He. injection He as <-.
    apply nth_error_seq in Ek. subst k. reflexivity. }
  split; [exact Hin|]. split.
  { intros i Hi. apply hist_nth; [exact Hs|lia]. }
  split.
  { intros x Hx. apply (unique_bin edges lo hi); try assumption; [lia|apply Hin; exact Hx]. }
  destruct (cumulative_ends y edges lo hi Hhd Hlast ltac:(lia) Hin) as [H1 H2].
  rewrite (zsum_differences _ 0%Z (Z.of_nat (length y)) eq_refl H1 H2). lia.
Qed.

(** ** density *)

Lemma fold_left_zsum l : forall a, fold_left Z.add l a = (a + zsum l)%Z.
Proof. induction l as [|x l IH]; intros a; cbn [fold_left zsum fold_right]; [lia|]. rewrite IH. unfold zsum. lia. Qed.

Lemma widths_pos edges : StronglySorted Rlt edges -> Forall (fun w => 0 < w) (widths edges).
Proof.
  induction 1 as [|a l Hs IH Hall]; [constructor|]. destruct l as [|b l]; [constructor|].
  change (widths (a :: b :: l)) with ((b - a) :: widths (b :: l)).
  inversion Hall; subst. constructor; [lra|exact IH].
Qed.
Lemma widths_length (edges : list R) : length (widths edges) = (length edges - 1)%nat.
Proof. induction edges as [|a [|b l] IH]; cbn [widths length] in * ; try reflexivity. rewrite IH. lia. Qed.

Lemma density_sum counts : forall ws T, Forall (fun w => 0 < w) ws -> length counts = length ws -> T <> 0 ->
  rsum_prod (map (fun cw => IZR (fst cw) / snd cw / T) (combine counts ws)) ws = IZR (zsum counts) / T.
Proof.
  induction counts as [|c counts IH]; intros ws T Hw Hl HT.
  - unfold rsum_prod. cbn. lra.
  - destruct ws as [|w ws]; [discriminate|]. inversion Hw as [|? ? Hw0 Hws]; subst.
    unfold rsum_prod. cbn [combine map fst snd fold_right].
    fold (rsum_prod (map (fun cw => IZR (fst cw) / snd cw / T) (combine counts ws)) ws).
    rewrite IH by (try assumption; cbn in Hl; lia).
    change (zsum (c :: counts)) with (c + zsum counts)%Z. rewrite plus_IZR. field. lra.
Qed.

Lemma bin_linear_density_spec frac y n : 0 < frac -> y <> [] -> (1 <= n)%nat ->
  exists counts dens edges, bin_linear frac y n = Ok (counts, edges) /\
    bin_linear_density frac y n = Ok (dens, edges) /\ length dens = n /\
    (forall i d, nth_error dens i = Some d -> 0 <= d) /\
    rsum_prod dens (widths edges) = 1.
Proof.
  intros Hf Hne Hn. destruct (bin_linear_spec frac y n Hf Hne Hn)
    as (counts & edges & lo & hi & HE & Hle & Hlc & Hs & _ & _ & _ & _ & Hc & _ & Hsum).
  unfold bin_linear_density. rewrite HE. cbn [bind fst snd].
  exists counts, (densities counts edges), edges.
  assert (HT : IZR (zsum counts) <> 0).
  { rewrite Hsum. destruct y; [contradiction|]. apply not_0_IZR. cbn [length]. lia. }
  unfold densities. rewrite fold_left_zsum, Z.add_0_l. cbn [nofZ ndiv NumR].
  split; [reflexivity|]. split; [reflexivity|]. split; [|split].
  - rewrite map_length, combine_length, widths_length, Hle, Hlc. lia.
  - intros i d Hd. rewrite nth_error_map in Hd.
    destruct (nth_error (combine counts (widths edges)) i) as [[c w]|] eqn:Ec; [|discriminate].
    injection Hd as <-. cbn [fst snd].
    assert (Hw : 0 < w).
    { pose proof (widths_pos edges Hs) as Hp. rewrite Forall_forall in Hp. apply Hp.
      apply nth_error_In in Ec. apply in_combine_r in Ec. exact Ec. }
    assert (Hc0 : (0 <= c)%Z).
    { apply nth_error_In in Ec. apply in_combine_l in Ec. apply In_nth_error in Ec. destruct Ec as [j Hj].
      assert (j < n)%nat by (rewrite <- Hlc; apply nth_error_Some; congruence).
      rewrite Hc in Hj by assumption. injection Hj as <-. unfold count_if. lia. }
    apply IZR_le in Hc0.
    assert (0 < IZR (zsum counts)).
    { rewrite Hsum in * . assert (0 <= Z.of_nat (length y))%Z as Hp by lia. apply IZR_le in Hp. lra. }
    unfold Rdiv. apply Rmult_le_pos; [apply Rmult_le_pos; [exact Hc0|]|];
      left; apply Rinv_0_lt_compat; assumption.
  - rewrite density_sum.
    + field. exact HT.
    + apply widths_pos. exact Hs.
    + rewrite widths_length. lia.
    + exact HT.
Qed.

(** ** downsample *)
Lemma replicate_length scale : forall counts bins, 0 <= scale -> (forall c, In c counts -> (0 <= c)%Z) ->
  length counts = length bins ->
  INR (length (replicate_bins Int_part scale counts bins)) <= IZR (zsum counts) * scale.
Proof.
  induction counts as [|c counts IH]; intros bins Hs Hc Hl; destruct bins as [|b bins]; try discriminate.
  - cbn. lra.
  - unfold replicate_bins. cbn [combine flat_map fst snd].
    change (zsum (c :: counts)) with (c + zsum counts)%Z.
    rewrite app_length, repeat_length, plus_INR, plus_IZR.
    specialize (IH bins Hs (fun c' Hin => Hc c' (or_intror Hin)) ltac:(cbn in Hl; lia)).
    unfold replicate_bins in IH.
    assert (Hc0 : 0 <= IZR c) by (apply IZR_le, Hc; left; reflexivity).
    cbn [nmul nofZ NumR] in * .
    assert (Hp : 0 <= IZR c * scale) by nra.
    destruct (base_Int_part (IZR c * scale)) as [Hb1 Hb2].
    assert (Hi : (0 <= Int_part (IZR c * scale))%Z).
    { assert (-1 < Int_part (IZR c * scale))%Z by (apply lt_IZR; lra). lia. }
    rewrite INR_IZR_INZ, Z2Nat.id by exact Hi. lra.
Qed.

Lemma replicate_in (floor : R -> Z) scale counts bins v :
  In v (replicate_bins floor scale counts bins) -> In v bins.
Proof.
  unfold replicate_bins. intros Hin. apply in_flat_map in Hin. destruct Hin as ([c b] & Hcb & Hin).
  apply repeat_spec in Hin. cbn in Hin. subst v. apply in_combine_r in Hcb. exact Hcb.
Qed.

Lemma occurrences_app v (a b : list R) : occurrences v (a ++ b) = (occurrences v a + occurrences v b)%Z.
Proof. unfold occurrences. rewrite filter_app, app_length. lia. Qed.
Lemma occurrences_repeat v (b : R) n : occurrences v (repeat b n) = (if Reqb b v then Z.of_nat n else 0)%Z.
Proof.
  unfold occurrences. cbn. induction n as [|n IH]; cbn [repeat filter length]; [destruct (Reqb b v); reflexivity|].
  destruct (Reqb b v); cbn [length] in * ; lia.
Qed.
Lemma occurrences_notin v (l : list R) : ~ In v l -> occurrences v l = 0%Z.
Proof.
  unfold occurrences. induction l as [|x l IH]; intros Hn; [reflexivity|]. cbn [filter].
  rewrite eqb_ne by (intros ->; apply Hn; left; reflexivity). apply IH. intros Hin; apply Hn; right; exact Hin.
Qed.

Lemma replicate_occ (f : R -> Z) scale bins v : NoDup bins -> In v bins ->
  (0 <= Int_part (IZR (f v) * scale))%Z ->
  occurrences v (replicate_bins Int_part scale (map f bins) bins) = Int_part (IZR (f v) * scale).
Proof.
  induction bins as [|b bins IH]; intros Hn Hin Hp; [destruct Hin|].
  inversion Hn as [|? ? Hb Hn']; subst. unfold replicate_bins. cbn [map combine flat_map fst snd].
  rewrite occurrences_app, occurrences_repeat.
  fold (replicate_bins Int_part scale (map f bins) bins).
  destruct Hin as [->|Hin].
  - rewrite (proj2 (Reqb_true v v) eq_refl).
    rewrite (occurrences_notin v (replicate_bins _ _ _ _)) by (intros Hin; apply replicate_in in Hin; contradiction).
    cbn [nmul nofZ NumR]. rewrite Z2Nat.id by exact Hp. lia.
  - rewrite (proj2 (Reqb_false b v)) by (intros ->; contradiction). rewrite IH by assumption. reflexivity.
Qed.

Lemma len_pos {X} (y : list X) : y <> [] -> 0 < IZR (Z.of_nat (length y)).
Proof. destruct y; [contradiction|]. intros _. apply IZR_lt. cbn [length]. lia. Qed.

Lemma downsample_scale floor frac y n_max bc : y <> [] ->
  downsample floor frac y n_max bc =
  let scale := n_max / INR (length y) in
  if Rleb (INR (length y)) n_max then Ok y
  else match bc with
       | Some n => bind (bin_linear frac y n) (fun r => Ok (replicate_bins floor scale (fst r) (centres (snd r))))
       | None => bind (bin_exact y) (fun r => Ok (replicate_bins floor scale (fst r) (snd r)))
       end.
Proof.
  intros Hne. unfold downsample. pose proof (len_pos y Hne) as Hp.
  rewrite py_div_R by (cbn; lra). cbn [bind]. cbn [nofZ nle NumR].
  rewrite <- INR_IZR_INZ in * . cbv zeta.
  replace (Rleb 1 (n_max / INR (length y))) with (Rleb (INR (length y)) n_max); [reflexivity|].
  set (L := INR (length y)) in * .
  assert (E : n_max = (n_max / L) * L) by (field; lra).
  destruct (Rleb L n_max) eqn:E1; symmetry; [apply Rleb_true in E1; apply Rleb_true|apply Rleb_false in E1; apply Rleb_false];
    set (q := n_max / L) in * ; nra.
Qed.

Lemma StronglySorted_NoDup l : StronglySorted (Lt (A := R)) l -> NoDup l.
Proof.
  induction 1 as [|a l Hs IH Hall]; constructor; [|exact IH].
  rewrite Forall_forall in Hall. intros Hin. apply Hall in Hin. unfold Lt in Hin. cbn in Hin.
  apply Rltb_true in Hin. lra.
Qed.

Lemma downsample_exact frac y n_max : y <> [] -> 0 < n_max < INR (length y) ->
  exists out, downsample Int_part frac y n_max None = Ok out /\ INR (length out) <= n_max /\
    (forall v, In v out -> In v y) /\
    (forall v, occurrences v out = Int_part (IZR (occurrences v y) * (n_max / INR (length y)))) /\
    StronglySorted Rle out.
Proof.
  intros Hne Hn. rewrite downsample_scale by exact Hne. cbv zeta.
  rewrite (proj2 (Rleb_false (INR (length y)) n_max)) by lra.
  destruct (bin_exact_spec y) as (bins & -> & Hs & Hin & Hsum). cbn [bind fst snd].
  set (scale := n_max / INR (length y)).
  assert (Hsc : 0 < scale) by (apply Rdiv_lt_0_compat; lra).
  assert (Hfl : forall v, (0 <= Int_part (IZR (occurrences v y) * scale))%Z).
  { intros v. assert (0 <= IZR (occurrences v y)) by (apply IZR_le; unfold occurrences; lia).
    destruct (base_Int_part (IZR (occurrences v y) * scale)).
    assert (-1 < Int_part (IZR (occurrences v y) * scale))%Z by (apply lt_IZR; nra). lia. }
  eexists. split; [reflexivity|]. split; [|split; [|split]].
  - eapply Rle_trans; [apply replicate_length; [lra| |]|].
    + intros c Hc. apply in_map_iff in Hc. destruct Hc as (v & <- & _). unfold occurrences. lia.
    + rewrite map_length. reflexivity.
    + rewrite Hsum, <- INR_IZR_INZ. unfold scale. right. field. lra.
  - intros v Hv. apply replicate_in in Hv. apply Hin. exact Hv.
  - intros v. destruct (in_dec Req_EM_T v bins) as [Hv|Hv].
    + apply replicate_occ; [apply StronglySorted_NoDup; exact Hs|exact Hv|apply Hfl].
    + rewrite (occurrences_notin v (replicate_bins _ _ _ _)) by (intros H; apply replicate_in in H; contradiction).
      rewrite (occurrences_notin v y) by (intros H; apply Hv, Hin; exact H).
      rewrite Rmult_0_l. symmetry. destruct (base_Int_part 0).
      assert (-1 < Int_part 0 < 1)%Z by (split; apply lt_IZR; lra). lia.
  - clear Hin Hsum Hfl. unfold replicate_bins.
    generalize (map (fun v => occurrences v y) bins). induction Hs as [|b bins Hs IH Hall]; intros counts.
    + destruct counts; constructor.
    + destruct counts as [|c counts]; [constructor|]. cbn [combine flat_map fst snd].
      set (n := Z.to_nat _). specialize (IH counts). set (rest := flat_map _ _) in * .
      assert (Hr : Forall (Rle b) rest).
      { apply Forall_forall. intros x Hx. apply (replicate_in Int_part scale counts bins) in Hx.
        rewrite Forall_forall in Hall. apply Hall in Hx. unfold Lt in Hx. cbn in Hx. apply Rltb_true in Hx. lra. }
      induction n as [|n IHn]; [exact IH|]. cbn [repeat app]. constructor; [exact IHn|].
      apply Forall_app. split; [|exact Hr]. apply Forall_forall. intros x Hx. apply repeat_spec in Hx. lra.
Qed.

Lemma centres_between (edges : list R) lo hi : StronglySorted Rlt edges -> hd_error edges = Some lo -> last edges lo = hi ->
  forall c, In c (centres edges) -> lo < c < hi.
Proof.
  intros Hs. revert lo. induction Hs as [|a l Hs IH Hall]; intros lo Hh Hl c Hc; [destruct Hc|].
  injection Hh as ->. destruct l as [|b l]; [destruct Hc|].
  change (centres (lo :: b :: l)) with (((lo + b) / 2) :: centres (b :: l)) in Hc.
  change (last (lo :: b :: l) lo) with (last (b :: l) lo) in Hl.
  assert (Hlb : last (b :: l) b = hi).
  { rewrite <- Hl. clear. destruct l as [|c l]; [reflexivity|]. change (last (c :: l) b = last (c :: l) lo).
    revert c. induction l as [|d l IH]; intros c; [reflexivity|]. change (last (d :: l) b = last (d :: l) lo). apply IH. }
  assert (Hbh : b <= hi).
  { rewrite <- Hlb. destruct l as [|c' l] using rev_ind; [cbn; lra|].
    rewrite app_comm_cons, last_last. inversion Hs as [|? ? _ Hb]; subst. rewrite Forall_forall in Hb.
    left. apply Hb. apply in_or_app. right; left; reflexivity. }
  inversion Hall; subst. destruct Hc as [<-|Hc]; [lra|].
  specialize (IH b eq_refl Hlb c Hc). lra.
Qed.
Lemma centres_length (edges : list R) : length (centres edges) = (length edges - 1)%nat.
Proof. induction edges as [|a [|b l] IH]; cbn [centres length] in * ; try reflexivity. rewrite IH. lia. Qed.

Lemma downsample_linear frac y n_max n : 0 < frac -> y <> [] -> (1 <= n)%nat -> 0 < n_max < INR (length y) ->
  exists out counts edges, downsample Int_part frac y n_max (Some n) = Ok out /\
    bin_linear frac y n = Ok (counts, edges) /\ INR (length out) <= n_max /\
    (forall v, In v out -> In v (centres edges)).
Proof.
  intros Hf Hne Hn Hm. rewrite downsample_scale by exact Hne. cbv zeta.
  rewrite (proj2 (Rleb_false (INR (length y)) n_max)) by lra.
  destruct (bin_linear_spec frac y n Hf Hne Hn)
    as (counts & edges & lo & hi & -> & Hle & Hlc & _ & _ & _ & _ & _ & Hc & _ & Hsum). cbn [bind fst snd].
  do 3 eexists. split; [reflexivity|]. split; [reflexivity|]. split.
  - assert (0 < n_max / INR (length y)) by (apply Rdiv_lt_0_compat; lra).
    eapply Rle_trans; [apply replicate_length; [lra| |]|].
    + intros c Hin. apply In_nth_error in Hin. destruct Hin as [j Hj].
      assert (j < n)%nat by (rewrite <- Hlc; apply nth_error_Some; congruence).
      rewrite Hc in Hj by assumption. injection Hj as <-. unfold count_if. lia.
    + rewrite centres_length. lia.
    + rewrite Hsum, <- INR_IZR_INZ. right. field. lra.
  - intros v Hv. apply replicate_in in Hv. exact Hv.
Qed.
