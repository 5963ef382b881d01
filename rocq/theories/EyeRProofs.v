From Coq Require Import List ZArith Bool Lia Sorted Permutation Reals Lra.
Import ListNotations.
From Verif Require Import Base Num RBool LinesModel LinesCyModel LinesSpec LinesProofs LinesCyProofs LinesHitsProofs
  StatsModel StatsProofs MaskModel MaskProofs DrawModel DrawSpec DrawProofs EyeModel EyeSpec EyeProofs.
Local Open Scope R_scope.

(** *** int() and % *)
Lemma Int_part_bounds x : IZR (Int_part x) <= x < IZR (Int_part x) + 1.
Proof. destruct (base_Int_part x) as [H1 H2]. lra. Qed.
Lemma Int_part_eq x k : IZR k <= x < IZR k + 1 -> Int_part x = k.
Proof.
  intros Hk. pose proof (Int_part_bounds x) as Hi.
  assert (Int_part x < k + 1)%Z by (apply lt_IZR; rewrite plus_IZR; lra).
  assert (k < Int_part x + 1)%Z by (apply lt_IZR; rewrite plus_IZR; lra). lia.
Qed.
Lemma truncR_pos x : 0 <= x -> IZR (truncR x) <= x < IZR (truncR x) + 1 /\ (0 <= truncR x)%Z.
Proof.
  intros Hx. unfold truncR. rewrite (proj2 (Rltb_false x 0)) by lra.
  pose proof (Int_part_bounds x) as Hi. split; [exact Hi|].
  assert (-1 < Int_part x)%Z by (apply lt_IZR; lra). lia.
Qed.
Lemma truncR_neg x : x < 0 -> (truncR x <= 0)%Z /\ x <= IZR (truncR x) < x + 1.
Proof.
  intros Hx. unfold truncR. rewrite (proj2 (Rltb_true x 0)) by lra.
  pose proof (Int_part_bounds (- x)) as Hi. rewrite opp_IZR. split; [|lra].
  assert (-1 < Int_part (- x))%Z by (apply lt_IZR; lra). lia.
Qed.
Lemma truncR_eq x k : 0 <= x -> IZR k <= x < IZR k + 1 -> truncR x = k.
Proof.
  intros Hx Hk. unfold truncR. rewrite (proj2 (Rltb_false x 0)) by lra. apply Int_part_eq. exact Hk.
Qed.
Lemma float_mod_bounds b d : 0 < d -> 0 <= float_mod b d < d.
Proof.
  intros Hd. unfold float_mod. pose proof (Int_part_bounds (b / d)) as Hi.
  assert (E : b = d * (b / d)) by (field; lra).
  split.
  - apply Rle_trans with (d * (b / d - IZR (Int_part (b / d)))); [|lra].
    apply Rmult_le_pos; lra.
  - apply Rle_lt_trans with (d * (b / d - IZR (Int_part (b / d)))); [lra|].
    apply Rlt_le_trans with (d * 1); [apply Rmult_lt_compat_l; lra|lra].
Qed.

Lemma i_width_R (t_sym t_delta : R) w : 0 < t_sym -> 0 < t_delta ->
  get_i_width int_of_float t_sym t_delta = Ok w ->
  (2 <= w)%Z /\ IZR w <= t_sym / t_delta + 5/2 /\ t_sym / t_delta + 3/2 < IZR w.
Proof.
  intros Hs Hd E. unfold get_i_width, int_of_float in E. cbn [bind] in E. 
  assert (Hw : w = (truncR (t_sym / t_delta + / 2) + 2)%Z) by (injection E as <-; reflexivity).
  assert (Hq : 0 < t_sym / t_delta) by (apply Rdiv_lt_0_compat; assumption).
  destruct (truncR_pos (t_sym / t_delta + / 2) ltac:(lra)) as [H1 H2].
  rewrite Hw. split; [lia|]. rewrite plus_IZR. lra.
Qed.

(** *** Alignment *)
Lemma aligned (t_delta t_zero b : R) c : 0 < t_delta -> (1 <= c)%Z ->
  int_of_float ((b - t_zero - float_mod b t_delta) / t_delta + / 2) = Ok c ->
  Rabs (t_zero + IZR c * t_delta + float_mod b t_delta - b) <= t_delta / 2 /\
  ((exists k, t_zero = IZR k * t_delta) -> t_zero + IZR c * t_delta + float_mod b t_delta = b).
Proof.
  intros Hd Hc E. unfold int_of_float in E. set (ct := float_mod b t_delta) in * .
  set (z := (b - t_zero - ct) / t_delta) in * .
  assert (Ez : b - t_zero - ct = z * t_delta) by (unfold z; field; lra).
  assert (Et : truncR (z + / 2) = c) by (injection E; auto). clear E.
  assert (Hz : 0 <= z + / 2).
  { destruct (Rlt_le_dec (z + / 2) 0) as [Hn|]; [|assumption]. apply truncR_neg in Hn. lia. }
  destruct (truncR_pos _ Hz) as [Hb _]. rewrite Et in Hb. split.
  - replace (t_zero + IZR c * t_delta + ct - b) with ((IZR c - z) * t_delta) by (rewrite Rmult_minus_distr_r, <- Ez; ring).
    rewrite Rabs_mult, (Rabs_right t_delta) by lra.
    apply Rle_trans with (/ 2 * t_delta); [|lra]. apply Rmult_le_compat_r; [lra|].
    apply Rabs_le. lra.
  - intros (k & Hk). 
    assert (Ej : z = IZR (Int_part (b / t_delta) - k)).
    { unfold z, ct, float_mod. rewrite Hk, minus_IZR. field. lra. }
    assert (c = Int_part (b / t_delta) - k)%Z.
    { rewrite <- Et. apply truncR_eq; [exact Hz|]. rewrite Ej. lra. }
    replace (IZR c) with z by (rewrite Ej; congruence). lra.
Qed.

Lemma step3_aligned (t_sym t_delta t_zero : R) max_i edges syms s : 0 < t_sym -> 0 < t_delta ->
  step3_sample int_of_float float_mod t_sym t_delta t_zero max_i edges = Ok syms -> In s syms ->
  exists b, In b edges /\ fst s = - float_mod b t_delta /\
    Rabs (t_zero + IZR (snd s) * t_delta - fst s - b) <= t_delta / 2 /\
    ((exists k, t_zero = IZR k * t_delta) -> t_zero + IZR (snd s) * t_delta - fst s = b).
Proof.
  intros Hs Hd E Hin.
  destruct (get_i_width int_of_float t_sym t_delta) as [w|] eqn:Ew; [|discriminate].
  destruct (i_width_R _ _ _ Hs Hd Ew) as (Hw & _).
  pose proof (step3_inside _ _ _ _ _ _ _ _ _ E Ew s Hin) as [Hi _].
  destruct (step3_filter _ _ _ _ _ _ _ _ _ E Ew) as (idx & Hidx & ->).
  apply in_map_iff in Hin. destruct Hin as (b & <- & Hb). apply filter_In in Hb. destruct Hb as [Hb _].
  exists b. split; [exact Hb|]. cbn [fst snd]. 
  assert (En : neg (float_mod b t_delta) = - float_mod b t_delta) by (unfold neg; cbn; lra).
  rewrite En. split; [reflexivity|].
  cbn [snd] in Hi.
  destruct (aligned t_delta t_zero b (idx b) Hd ltac:(lia) (Hidx b Hb)) as [H1 H2].
  replace (t_zero + IZR (idx b) * t_delta - - float_mod b t_delta)
    with (t_zero + IZR (idx b) * t_delta + float_mod b t_delta) by ring.
  split; assumption.
Qed.

(** The time axis of a window. *)
Lemma window_axis_R w (t_sym t_delta : R) t0 : (1 <= w)%Z -> window_axis w t_sym t_delta = Ok t0 ->
  t0 = map (fun i => 1/2 + (IZR (Z.of_nat i) - IZR w) * t_delta / t_sym) (seq 0 (Z.to_nat (w * 2 + 1))).
Proof.
  intros Hw. unfold window_axis. cbv zeta. destruct (Z.ltb_spec (w * 2 + 1) 0); [lia|].
  intros E. injection E as <-.
  replace (Z.to_nat (w * 2 + 1)) with (Z.to_nat (w * 2) + 1)%nat by lia.
  rewrite linspace_R by lia. apply map_ext_in. intros i _. cbn [nsub nadd nmul ndiv nofZ nhalf NumR].
  rewrite (INR_IZR_INZ (Z.to_nat (w * 2))), Z2Nat.id by lia. rewrite mult_IZR, INR_IZR_INZ.
  assert (IZR w <> 0) by (apply not_0_IZR; lia). unfold Rdiv. 
  rewrite Rinv_mult. set (u := / t_sym). field. assumption.
Qed.

Lemma window_time w (t_sym t_delta t_zero b : R) t0 y s k : (1 <= w)%Z -> t_sym <> 0 ->
  window_axis w t_sym t_delta = Ok t0 -> (k < length t0)%nat ->
  t_zero + IZR (snd s) * t_delta - fst s = b ->
  nth_error (fst (window_fb t0 y w t_sym s)) k =
  Some (1/2 + (t_zero + IZR (snd s - w + Z.of_nat k) * t_delta - b) / t_sym).
Proof.
  intros Hw Hs Et Hk Hb. pose proof (window_axis_R _ _ _ _ Hw Et) as Ht.
  destruct (window_axis_length _ _ _ _ Et) as [_ Hl]. rewrite Hl in Hk.
  unfold window_fb. cbn [fst]. rewrite nth_error_map, Ht, nth_error_map.
  assert (E : nth_error (seq 0 (Z.to_nat (w * 2 + 1))) k = Some k).
  { rewrite (nth_error_nth' _ O) by (rewrite seq_length; exact Hk). rewrite seq_nth by exact Hk. reflexivity. }
  rewrite E. cbn [option_map]. f_equal. cbn [nadd ndiv NumR]. rewrite <- Hb, plus_IZR, minus_IZR. field. exact Hs.
Qed.

(** *** Pixels of the guide lines *)
Lemma uia_R res u : (0 < res)%Z -> exists p, uia_to_image int_of_float res u = Ok p /\
  (-1/2 <= u -> IZR p <= (u + 1/2) / 2 * IZR res < IZR p + 1 /\ (0 <= p)%Z) /\
  (u < -1/2 -> (p <= 0)%Z /\ (u + 1/2) / 2 * IZR res <= IZR p < (u + 1/2) / 2 * IZR res + 1).
Proof.
  intros Hr. assert (0 < IZR res) by (apply (IZR_lt 0); exact Hr).
  exists (truncR ((u + / 2) / 2 * IZR res)). split; [reflexivity|].
  replace (u + 1/2) with (u + / 2) by lra. split; intros Hu.
  - apply truncR_pos. apply Rmult_le_pos; lra.
  - apply truncR_neg. apply Ropp_lt_cancel. rewrite Ropp_0, Ropp_mult_distr_l. apply Rmult_lt_0_compat; lra.
Qed.

(** *** Sorting with duplicates *)
Lemma insert_sorted_R x l : StronglySorted Rle l -> StronglySorted Rle (insert x l) /\ Permutation (x :: l) (insert x l).
Proof.
  induction l as [|y l IH]; intros Hs; cbn [insert].
  - split; [repeat constructor|reflexivity].
  - inversion Hs as [|? ? Hs' Hf]; subst. cbn [nlt NumR]. destruct (Rltb x y) eqn:E.
    + apply Rltb_true in E. split; [|reflexivity]. constructor; [exact Hs|]. constructor; [lra|].
      eapply Forall_impl; [|exact Hf]. intros; cbn in *; lra.
    + apply Rltb_false in E. destruct (IH Hs') as [H1 H2]. split.
      * constructor; [exact H1|]. rewrite Forall_forall in Hf |- * . intros z Hz.
        apply (Permutation_in z (Permutation_sym H2)) in Hz. destruct Hz as [<-|Hz]; [exact E|apply Hf; exact Hz].
      * etransitivity; [apply perm_swap|]. apply perm_skip. exact H2.
Qed.
Lemma sorted_R (l : list R) : StronglySorted Rle (sorted l) /\ Permutation l (sorted l).
Proof.
  unfold sorted.
  assert (G : forall l acc, StronglySorted Rle acc ->
     StronglySorted Rle (fold_left (fun acc x => insert x acc) l acc) /\
     Permutation (l ++ acc) (fold_left (fun acc x => insert x acc) l acc)).
  { clear l. induction l as [|x l IH]; intros acc Ha; cbn [fold_left app]; [split; [exact Ha|reflexivity]|].
    destruct (insert_sorted_R x acc Ha) as [H1 H2]. destruct (IH _ H1) as [H3 H4]. split; [exact H3|].
    etransitivity; [|exact H4]. etransitivity; [apply Permutation_middle|]. apply Permutation_app_head. exact H2. }
  destruct (G l [] ltac:(constructor)) as [H1 H2]. rewrite app_nil_r in H2. split; assumption.
Qed.
Lemma filter_sorted (p : R -> bool) l : StronglySorted Rle l -> StronglySorted Rle (filter p l).
Proof.
  induction l as [|x l IH]; intros Hs; cbn [filter]; [constructor|].
  inversion Hs as [|? ? Hs' Hf]; subst. destruct (p x); [|apply IH; exact Hs'].
  constructor; [apply IH; exact Hs'|]. rewrite Forall_forall in Hf |- * . intros z Hz.
  apply filter_In in Hz. apply Hf. apply Hz.
Qed.
Lemma filter_perm {X} (p : X -> bool) l l' : Permutation l l' -> Permutation (filter p l) (filter p l').
Proof.
  induction 1; cbn [filter]; try reflexivity.
  - destruct (p x); [apply perm_skip|]; assumption.
  - destruct (p x), (p y); try reflexivity. apply perm_swap.
  - etransitivity; eassumption.
Qed.
Lemma filter_split_perm (p q : R -> bool) l : (forall x, q x = negb (p x)) -> Permutation l (filter p l ++ filter q l).
Proof.
  intros Hq. induction l as [|x l IH]; cbn [filter]; [constructor|]. rewrite (Hq x). destruct (p x); cbn [negb].
  - apply perm_skip. exact IH.
  - etransitivity; [apply perm_skip; exact IH|]. apply Permutation_middle.
Qed.

(** How many values of a list satisfy a test. *)
Lemma filter_length_perm {X} (p : X -> bool) l l' : Permutation l l' -> length (filter p l) = length (filter p l').
Proof. intros Hp. apply Permutation_length. apply filter_perm. exact Hp. Qed.
Lemma filter_filter {X} (p q : X -> bool) l : filter p (filter q l) = filter (fun x => q x && p x) l.
Proof.
  induction l as [|x l IH]; cbn [filter]; [reflexivity|]. destruct (q x); cbn [filter andb]; [destruct (p x)|]; rewrite IH; reflexivity.
Qed.
Lemma filter_all {X} (p : X -> bool) l : (forall x, In x l -> p x = true) -> filter p l = l.
Proof.
  induction l as [|x l IH]; intros Hp; cbn [filter]; [reflexivity|]. rewrite Hp by (left; reflexivity).
  f_equal. apply IH. intros; apply Hp; right; assumption.
Qed.
Lemma filter_none {X} (p : X -> bool) l : (forall x, In x l -> p x = false) -> filter p l = [].
Proof.
  induction l as [|x l IH]; intros Hp; cbn [filter]; [reflexivity|]. rewrite Hp by (left; reflexivity).
  apply IH. intros; apply Hp; right; assumption.
Qed.
Lemma sorted_split (l : list R) i x : StronglySorted Rle l -> nth_error l i = Some x ->
  exists a b, l = a ++ x :: b /\ length a = i /\ Forall (fun z => z <= x) a /\ Forall (fun z => x <= z) b.
Proof.
  intros Hs Hi. destruct (nth_error_split l i Hi) as (a & b & -> & Hl). exists a, b.
  split; [reflexivity|]. split; [exact Hl|]. clear Hi Hl. induction a as [|z a IH]; cbn in Hs.
  - inversion Hs; subst. split; [constructor|assumption].
  - inversion Hs as [|? ? Hs' Hf]; subst. destruct (IH Hs') as [H1 H2]. split; [|exact H2].
    constructor; [|exact H1]. rewrite Forall_forall in Hf. apply Hf. apply in_or_app. right. left. reflexivity.
Qed.
Lemma filter_length_le {X} (p : X -> bool) l : (length (filter p l) <= length l)%nat.
Proof. induction l as [|x l IH]; cbn [filter]; [lia|]. destruct (p x); cbn; lia. Qed.

(** Ranks in a sorted list bracket the counts of larger (smaller) values. *)
Lemma rank_above (l : list R) i x : StronglySorted Rle l -> nth_error l i = Some x ->
  (length (filter (fun z => Rltb x z) l) < length l - i <= length (filter (fun z => Rleb x z) l))%nat.
Proof.
  intros Hs Hi. destruct (sorted_split l i x Hs Hi) as (a & b & -> & Hl & Ha & Hb).
  rewrite Forall_forall in Ha, Hb. rewrite !filter_app, !app_length. cbn [filter length].
  rewrite (filter_none (fun z => Rltb x z) a) by (intros z Hz; apply Rltb_false; apply Ha; exact Hz).
  rewrite (proj2 (Rltb_false x x)) by lra. rewrite (proj2 (Rleb_true x x)) by lra.
  rewrite (filter_all (fun z => Rleb x z) b) by (intros z Hz; apply Rleb_true; apply Hb; exact Hz).
  cbn [length]. pose proof (filter_length_le (fun z => Rltb x z) b). lia.
Qed.
Lemma rank_below (l : list R) i x : StronglySorted Rle l -> nth_error l i = Some x ->
  (length (filter (fun z => Rltb z x) l) < S i <= length (filter (fun z => Rleb z x) l))%nat.
Proof.
  intros Hs Hi. destruct (sorted_split l i x Hs Hi) as (a & b & -> & Hl & Ha & Hb).
  rewrite Forall_forall in Ha, Hb. rewrite !filter_app, !app_length. cbn [filter length].
  rewrite (filter_none (fun z => Rltb z x) b) by (intros z Hz; apply Rltb_false; apply Hb; exact Hz).
  rewrite (proj2 (Rltb_false x x)) by lra. rewrite (proj2 (Rleb_true x x)) by lra.
  rewrite (filter_all (fun z => Rleb z x) a) by (intros z Hz; apply Rleb_true; apply Ha; exact Hz).
  cbn [length]. pose proof (filter_length_le (fun z => Rltb z x) a). lia.
Qed.

(** *** Bathtub curves *)
Definition count (p : R -> bool) (l : list R) : R := INR (length (filter p l)).
Lemma nth_error_rev_seq n i : (i < n)%nat -> nth_error (rev (seq 0 n)) i = Some (n - 1 - i)%nat.
Proof.
  intros Hi. rewrite (nth_error_nth' _ O) by (rewrite rev_length, seq_length; exact Hi).
  rewrite rev_nth by (rewrite seq_length; exact Hi). rewrite seq_length, seq_nth by lia. f_equal. lia.
Qed.
Lemma sorted_map_dec (f : nat -> R) n : forall b, (forall i j, (i < j < b + n)%nat -> f j < f i) ->
  StronglySorted Rgt (map f (seq b n)).
Proof.
  induction n as [|n IH]; intros b Hf; cbn [seq map]; constructor.
  - apply IH. intros; apply Hf; lia.
  - apply Forall_forall. intros z Hz. apply in_map_iff in Hz. destruct Hz as (j & <- & Hj). apply in_seq in Hj.
    apply Hf. lia.
Qed.
Lemma sorted_app_snoc (l : list R) x : StronglySorted Rlt l -> Forall (fun z => z < x) l -> StronglySorted Rlt (l ++ [x]).
Proof.
  induction l as [|y l IH]; intros Hs Hf; cbn [app]; [repeat constructor|].
  inversion Hs; inversion Hf; subst. constructor; [apply IH; assumption|].
  apply Forall_app. split; [assumption|]. constructor; [assumption|constructor].
Qed.
Lemma sorted_rev_gt (l : list R) : StronglySorted Rgt l -> StronglySorted Rlt (rev l).
Proof.
  induction l as [|x l IH]; intros Hs; cbn [rev]; [constructor|]. inversion Hs as [|? ? Hs' Hf]; subst.
  apply sorted_app_snoc; [apply IH; exact Hs'|]. apply Forall_forall. intros z Hz. apply in_rev in Hz.
  rewrite Forall_forall in Hf. apply Hf. exact Hz.
Qed.
Lemma sorted_app (l1 l2 : list R) : StronglySorted Rle l1 -> StronglySorted Rle l2 ->
  (forall x y, In x l1 -> In y l2 -> x <= y) -> StronglySorted Rle (l1 ++ l2).
Proof.
  induction l1 as [|x l1 IH]; intros H1 H2 H12; cbn [app]; [exact H2|].
  inversion H1 as [|? ? H1' Hf]; subst. constructor.
  - apply IH; [exact H1'|exact H2|]. intros; apply H12; [right|]; assumption.
  - apply Forall_app. split; [exact Hf|]. apply Forall_forall. intros y Hy. apply H12; [left; reflexivity|exact Hy].
Qed.

Lemma bathtub_spec (hs : list R) : (forall h, In h hs -> 0 <= h <= 1) ->
  exists tl bl tr br, bathtub hs = ([0] ++ tl ++ tr ++ [1], [1] ++ bl ++ br ++ [1]) /\
    Permutation (tl ++ tr) hs /\ StronglySorted Rle ([0] ++ tl ++ tr ++ [1]) /\
    Forall (fun t => t <= 1/2) tl /\ Forall (fun t => 1/2 < t) tr /\
    length bl = length tl /\ length br = length tr /\
    StronglySorted Rgt bl /\ StronglySorted Rlt br /\
    Forall (fun b => 0 < b <= 1) (bl ++ br) /\
    (forall i t b, nth_error tl i = Some t -> nth_error bl i = Some b ->
       count (fun h => Rleb h (1/2) && Rltb t h) hs < b * count (fun h => Rleb h (1/2)) hs
         <= count (fun h => Rleb h (1/2) && Rleb t h) hs) /\
    (forall i t b, nth_error tr i = Some t -> nth_error br i = Some b ->
       count (fun h => Rltb (1/2) h && Rltb h t) hs < b * count (fun h => Rltb (1/2) h) hs
         <= count (fun h => Rltb (1/2) h && Rleb h t) hs).
Proof.
  intros Hr. unfold bathtub. cbv zeta. destruct (sorted_R hs) as [Hs Hp].
  set (L := sorted hs) in * . cbn [nle nlt nhalf nofZ nsub ndiv NumR].
  replace (/ 2) with (1 / 2) by lra.
  set (tl := filter (fun t => Rleb t (1/2)) L). set (tr := filter (fun t => Rltb (1/2) t) L).
  set (n := length tl). set (n' := length tr).
  set (f := fun (m i : nat) => 1 - IZR (Z.of_nat i) / IZR (Z.of_nat m)).
  exists tl, (map (f n) (seq 0 n)), tr, (map (f n') (rev (seq 0 n'))).
  assert (Hpos : forall m i, (i < m)%nat -> 0 < IZR (Z.of_nat m)) by (intros; apply IZR_lt; lia).
  assert (Hf : forall m i, (i < m)%nat -> f m i * INR m = INR (m - i)).
  { intros m i Hi. unfold f. rewrite INR_IZR_INZ, minus_INR by lia. rewrite !INR_IZR_INZ. field.
    apply Rgt_not_eq. apply (Hpos m i Hi). }
  assert (Hfr : forall m i, (i < m)%nat -> 0 < f m i <= 1).
  { intros m i Hi. pose proof (Hf m i Hi) as E. pose proof (Hpos m i Hi) as Hm. rewrite <- INR_IZR_INZ in Hm.
    assert (0 < INR (m - i)) by (apply lt_0_INR; lia). assert (INR (m - i) <= INR m) by (apply le_INR; lia).
    split.
    - apply (Rmult_lt_reg_r (INR m)); [exact Hm|]. rewrite E. lra.
    - apply (Rmult_le_reg_r (INR m)); [exact Hm|]. rewrite E. lra. }
  assert (Hdec : forall m i j, (i < j < m)%nat -> f m j < f m i).
  { intros m i j Hij. pose proof (Hpos m i ltac:(lia)) as Hm. rewrite <- INR_IZR_INZ in Hm.
    apply (Rmult_lt_reg_r (INR m)); [exact Hm|]. rewrite !Hf by lia. apply lt_INR. lia. }
  assert (Htl : forall t, In t tl -> In t hs /\ t <= 1/2).
  { intros t Ht. apply filter_In in Ht. rewrite Rleb_true in Ht. split; [|apply Ht].
    apply (Permutation_in t (Permutation_sym Hp)). apply Ht. }
  assert (Htr : forall t, In t tr -> In t hs /\ 1/2 < t).
  { intros t Ht. apply filter_In in Ht. rewrite Rltb_true in Ht. split; [|apply Ht].
    apply (Permutation_in t (Permutation_sym Hp)). apply Ht. }
  assert (Cl : forall p, length (filter p tl) = length (filter (fun h => Rleb h (1/2) && p h) hs)).
  { intros p. unfold tl. rewrite filter_filter. apply filter_length_perm. apply Permutation_sym; exact Hp. }
  assert (Cr : forall p, length (filter p tr) = length (filter (fun h => Rltb (1/2) h && p h) hs)).
  { intros p. unfold tr. rewrite filter_filter. apply filter_length_perm. apply Permutation_sym; exact Hp. }
  assert (Nl : length tl = length (filter (fun h => Rleb h (1/2)) hs))
    by (unfold tl; apply filter_length_perm; apply Permutation_sym; exact Hp).
  assert (Nr : length tr = length (filter (fun h => Rltb (1/2) h) hs))
    by (unfold tr; apply filter_length_perm; apply Permutation_sym; exact Hp).
  assert (Sl : StronglySorted Rle tl) by (apply filter_sorted; exact Hs).
  assert (Sr : StronglySorted Rle tr) by (apply filter_sorted; exact Hs).
  split; [reflexivity|]. split.
  { etransitivity; [|apply Permutation_sym; exact Hp]. apply Permutation_sym. apply filter_split_perm.
    intros x. destruct (Rleb x (1/2)) eqn:E; cbn [negb].
    - apply Rltb_false. apply Rleb_true in E. exact E.
    - apply Rltb_true. apply Rleb_false in E. exact E. }
  split.
  { cbn [app]. constructor.
    - apply sorted_app; [exact Sl| |].
      + apply sorted_app; [exact Sr|repeat constructor|]. intros x y Hx [<-|[]].
        apply Htr in Hx. destruct Hx as [Hx _]. apply Hr in Hx. lra.
      + intros x y Hx Hy. apply Htl in Hx. apply in_app_or in Hy. destruct Hy as [Hy|[<-|[]]].
        * apply Htr in Hy. lra.
        * destruct Hx as [Hx _]. apply Hr in Hx. lra.
    - apply Forall_forall. intros x Hx. apply in_app_or in Hx. destruct Hx as [Hx|Hx].
      + apply Htl in Hx. destruct Hx as [Hx _]. apply Hr in Hx. lra.
      + apply in_app_or in Hx. destruct Hx as [Hx|[<-|[]]]; [|lra].
        apply Htr in Hx. destruct Hx as [Hx _]. apply Hr in Hx. lra. }
  split; [apply Forall_forall; intros; apply Htl; assumption|].
  split; [apply Forall_forall; intros; apply Htr; assumption|].
  split; [rewrite map_length, seq_length; reflexivity|].
  split; [rewrite map_length, rev_length, seq_length; reflexivity|].
  split; [apply sorted_map_dec; intros; apply Hdec; lia|].
  split; [rewrite map_rev; apply sorted_rev_gt; apply sorted_map_dec; intros; apply Hdec; lia|].
  split.
  { apply Forall_app. split; apply Forall_forall; intros b Hb; apply in_map_iff in Hb; destruct Hb as (i & <- & Hi).
    - apply in_seq in Hi. apply Hfr. lia.
    - apply in_rev in Hi. apply in_seq in Hi. apply Hfr. lia. }
  split.
  - intros i t b Ht Hb. assert (Hi : (i < n)%nat) by (apply nth_error_Some; unfold n; congruence).
    rewrite nth_error_map in Hb. rewrite (nth_error_nth' _ O) in Hb by (rewrite seq_length; exact Hi).
    rewrite seq_nth in Hb by exact Hi. cbn [option_map plus] in Hb. injection Hb as <-.
    unfold count. rewrite <- Nl. fold n. fold (f n i). rewrite (Hf n i Hi).
    rewrite <- (Cl (fun h => Rltb t h)), <- (Cl (fun h => Rleb t h)).
    destruct (rank_above tl i t Sl Ht) as [R1 R2]. fold n in R1, R2.
    split; [apply lt_INR|apply le_INR]; assumption.
  - intros i t b Ht Hb. assert (Hi : (i < n')%nat) by (apply nth_error_Some; unfold n'; congruence).
    rewrite nth_error_map, nth_error_rev_seq in Hb by exact Hi. cbn [option_map] in Hb. injection Hb as <-.
    unfold count. rewrite <- Nr. fold n'. fold (f n' (n' - 1 - i)%nat). rewrite (Hf n' (n' - 1 - i)%nat) by lia.
    replace (n' - (n' - 1 - i))%nat with (S i) by lia.
    rewrite <- (Cr (fun h => Rltb h t)), <- (Cr (fun h => Rleb h t)).
    destruct (rank_below tr i t Sr Ht) as [R1 R2].
    split; [apply lt_INR|apply le_INR]; assumption.
Qed.

(** *** Windows as polylines *)
Definition points (w : list R * list R) : list (R * R) := combine (fst w) (snd w).
Lemma combine_fst {X Y} (l : list X) (l' : list Y) : length l = length l' -> map fst (combine l l') = l.
Proof. revert l'. induction l as [|x l IH]; intros [|y l'] Hl; cbn in *; try discriminate; [reflexivity|]. f_equal. apply IH. lia. Qed.
Lemma combine_snd {X Y} (l : list X) (l' : list Y) : length l = length l' -> map snd (combine l l') = l'.
Proof. revert l'. induction l as [|x l IH]; intros [|y l'] Hl; cbn in *; try discriminate; [reflexivity|]. f_equal. apply IH. lia. Qed.
Lemma adjacent_combine_sorted (t y : list R) : StronglySorted Rle t ->
  forall a b, In (a, b) (adjacent (combine t y)) -> fst a <= fst b.
Proof.
  revert y. induction t as [|t1 t IH]; intros y Hs a b Hin; [destruct Hin|].
  destruct y as [|y1 y]; [destruct Hin|]. inversion Hs as [|? ? Hs' Hf]; subst.
  cbn [combine] in Hin. destruct t as [|t2 t]; [destruct y; destruct Hin|].
  destruct y as [|y2 y]; [destruct Hin|]. cbn [combine] in Hin. cbn [adjacent] in Hin.
  destruct Hin as [E|Hin].
  - injection E as <- <-. cbn. inversion Hf; assumption.
  - apply (IH (y2 :: y) Hs' a b). exact Hin.
Qed.
Lemma window_sorted w (t_sym t_delta : R) t0 y s : (1 <= w)%Z -> 0 < t_sym -> 0 < t_delta ->
  window_axis w t_sym t_delta = Ok t0 -> StronglySorted Rle (fst (window_fb t0 y w t_sym s)).
Proof.
  intros Hw Hs Hd Et. rewrite (window_axis_R _ _ _ _ Hw Et). unfold window_fb. cbn [fst]. rewrite map_map.
  generalize (Z.to_nat (w * 2 + 1)). intros n. cbn [nadd ndiv NumR].
  assert (G : forall b, StronglySorted Rle
    (map (fun x => 1/2 + (IZR (Z.of_nat x) - IZR w) * t_delta / t_sym + fst s / t_sym) (seq b n))).
  { induction n as [|n IH]; intros b; cbn [seq map]; constructor; [apply IH|].
    apply Forall_forall. intros z Hz. apply in_map_iff in Hz. destruct Hz as (j & <- & Hj). apply in_seq in Hj.
    assert (IZR (Z.of_nat b) <= IZR (Z.of_nat j)) by (apply IZR_le; lia).
    apply Rplus_le_compat_r. apply Rplus_le_compat_l. apply Rmult_le_compat_r.
    { apply Rlt_le. apply Rinv_0_lt_compat. exact Hs. }
    apply Rmult_le_compat_r; lra. }
  apply G.
Qed.

Lemma window_hits w (t_sym t_delta : R) t0 y s paths : (1 <= w)%Z -> 0 < t_sym -> 0 < t_delta ->
  window_axis w t_sym t_delta = Ok t0 -> (0 <= snd s - w /\ snd s + w < Z.of_nat (length y))%Z ->
  Forall (fun p => p <> []) paths ->
  let v := window_fb t0 y w t_sym s in
  hits (fst v) (snd v) paths = Ok (all_pairs (points v) paths).
Proof.
  intros Hw Hs Hd Et Hfit Hp v. destruct (window_axis_length _ _ _ _ Et) as [H0 Hl].
  destruct (window_agree t0 y w t_sym s H0 Hl Hfit) as (_ & L1 & L2 & _). fold v in L1, L2.
  pose proof (hits_all_pairs (points v) paths) as Q. unfold points in Q at 2 3.
  rewrite combine_fst, combine_snd in Q by congruence. apply Q; [|exact Hp].
  intros a b. apply adjacent_combine_sorted. apply (window_sorted w t_sym t_delta); assumption.
Qed.

(** *** Slicing at levels *)
Definition level_path (l : R) : list (R * R) := [(0, l); (1, l)].
Lemma y_slice_spec waveform_y symbols (t_delta t_sym y_zero y_ua : R) levels w t0 : 
  0 < t_sym -> 0 < t_delta ->
  get_i_width int_of_float t_sym t_delta = Ok w -> window_axis w t_sym t_delta = Ok t0 ->
  (forall s, In s symbols -> 0 <= snd s - w /\ snd s + w < Z.of_nat (length waveform_y))%Z ->
  let ws := windows t0 waveform_y w t_sym y_zero y_ua symbols in
  y_slice int_of_float waveform_y symbols t_delta t_sym y_zero y_ua levels =
  Ok (map (fun l => flat_map (fun v => map fst (all_pairs (points v) [level_path l])) ws) levels).
Proof.
  intros Hs Hd Ew Et Hfit ws. unfold y_slice. rewrite Ew. cbn [bind]. rewrite Et. cbn [bind].
  destruct (i_width_R _ _ _ Hs Hd Ew) as (Hw & _).
  set (wave := normalise_y waveform_y y_zero y_ua).
  assert (Hwl : length wave = length waveform_y) by apply map_length.
  unfold ws, windows. fold wave.
  assert (G : forall symbols pre, (forall s, In s symbols -> 0 <= snd s - w /\ snd s + w < Z.of_nat (length wave))%Z ->
    foldM (fun slices s =>
      let '(t, y) := window_fb t0 wave w t_sym s in
      mapM (fun sl : list R * R =>
        (h <- hits_np t y [[(nofZ 0, snd sl); (nofZ 1, snd sl)]] ;; Ok (fst sl ++ map fst h))%result) (combine slices levels))
      (map pre levels) symbols =
    Ok (map (fun l => pre l ++ flat_map (fun v => map fst (all_pairs (points v) [level_path l]))
                                  (map (window_fb t0 wave w t_sym) symbols)) levels)).
  { clear Hfit ws symbols. induction symbols as [|s symbols IH]; intros pre Hfit.
    - cbn. f_equal. apply map_ext. intros; rewrite app_nil_r; reflexivity.
    - cbn [foldM]. 
      assert (Estep : (let '(t, y) := window_fb t0 wave w t_sym s in
        mapM (fun sl : list R * R =>
          (h <- hits_np t y [[(nofZ 0, snd sl); (nofZ 1, snd sl)]] ;; Ok (fst sl ++ map fst h))%result)
          (combine (map pre levels) levels)) =
        Ok (map (fun l => pre l ++ map fst (all_pairs (points (window_fb t0 wave w t_sym s)) [level_path l])) levels)).
      { pose proof (fun l => window_hits w t_sym t_delta t0 wave s [level_path l] ltac:(lia) Hs Hd Et
          (Hfit s (or_introl eq_refl)) ltac:(repeat constructor; discriminate)) as Q. cbv zeta in Q.
        destruct (window_fb t0 wave w t_sym s) as [t y]. cbn [fst snd] in Q.
        clear IH Hfit. induction levels as [|l levels IHl]; [reflexivity|].
        cbn [map combine mapM]. cbn [fst snd]. unfold hits_np at 1.
        change [(nofZ 0, l); (nofZ 1, l)] with (level_path l). rewrite (Q l). cbn [bind].
        rewrite IHl. reflexivity. }
      rewrite Estep, (IH _ ltac:(intros; apply Hfit; right; assumption)). f_equal. apply map_ext. intros l.
      cbn [map flat_map]. rewrite <- app_assoc. reflexivity. }
  rewrite (G symbols (fun _ => [])).
  - reflexivity.
  - rewrite Hwl. exact Hfit.
Qed.

Lemma level_crossing_iff (v : list R * list R) l x :
  In x (map fst (all_pairs (points v) [level_path l])) <->
  exists a b, In (a, b) (adjacent (points v)) /\ snd a <> snd b /\ on_segment a b (x, l) /\ 0 <= x <= 1.
Proof.
  split.
  - intros Hin. apply in_map_iff in Hin. destruct Hin as (p & <- & Hp). apply all_pairs_in in Hp.
    destruct Hp as (path & a & b & c & d & [<-|[]] & Hab & Hcd & Hnp & Hon & (t & Ht & H1 & H2)).
    destruct Hcd as [E|[]]. injection E as <- <-. cbn [fst snd] in * . unfold parallel in Hnp. cbn [fst snd] in Hnp.
    exists a, b. split; [exact Hab|]. split; [intros Q; apply Hnp; rewrite Q; ring|].
    destruct p as [p1 p2]. cbn [fst snd] in * . replace l with p2 by lra. split; [exact Hon|]. lra.
  - intros (a & b & Hab & Hne & Hon & Hx). apply in_map_iff. exists (x, l). split; [reflexivity|].
    apply all_pairs_in. exists (level_path l), a, b, (0, l), (1, l). split; [left; reflexivity|].
    split; [exact Hab|]. split; [left; reflexivity|]. split; [unfold parallel; cbn [fst snd]; intros Q; apply Hne; lra|].
    split; [exact Hon|]. exists x. split; [exact Hx|]. split; cbn [fst snd]; ring.
Qed.

(** *** Heat map *)
Lemma visits_app a b l l' : visits a b (l ++ l') = (visits a b l + visits a b l')%Z.
Proof. unfold visits. rewrite filter_app, app_length. apply Nat2Z.inj_add. Qed.
Lemma adds_visits_trans nx ny f g h l l' : adds_visits nx ny f g l -> adds_visits nx ny g h l' ->
  adds_visits nx ny f h (l ++ l').
Proof.
  intros H1 H2 a b. destruct (H1 a b) as [P1 N1], (H2 a b) as [P2 N2]. split; intros Hi.
  - rewrite P2, P1, visits_app by exact Hi. lia.
  - rewrite N2, N1 by exact Hi. reflexivity.
Qed.

Section Stack.
Variables (cast : R -> Z) (waveform_y : list R) (t_delta t_sym min_y max_y : R) (resolution : Z).
Variables (w : Z) (t0 : list R).
Hypothesis Hs : 0 < t_sym.
Hypothesis Hd : 0 < t_delta.
Hypothesis Ew : get_i_width int_of_float t_sym t_delta = Ok w.
Hypothesis Et : window_axis w t_sym t_delta = Ok t0.

(** The pixel of a point (UI, fraction of the height). *)
Definition pixel_of (p : R * R) : Z * Z :=
  (cast ((fst p + 1/2) / 2 * IZR resolution), cast (snd p * IZR resolution)).
Definition symbol_pixels (s : @symbol R) : list (Z * Z) :=
  map pixel_of (points (window_fb t0 (normalise_y waveform_y min_y (max_y - min_y)) w t_sym s)).

Lemma combine_map {X Y Z T} (f : X -> Z) (g : Y -> T) l l' :
  combine (map f l) (map g l') = map (fun p => (f (fst p), g (snd p))) (combine l l').
Proof. revert l'. induction l as [|x l IH]; intros [|y l']; cbn; try reflexivity. f_equal. apply IH. Qed.

Lemma stack_point_cloud fuel symbols g : exists g',
  stack int_of_float cast fuel waveform_y symbols t_delta t_sym min_y max_y resolution g true = Ok g' /\
  n_x g' = n_x g /\ n_y g' = n_y g /\
  adds_visits (n_x g) (n_y g) (cell g) (cell g') (flat_map symbol_pixels symbols).
Proof.
  unfold stack. rewrite Ew. cbn [bind]. rewrite Et. cbn [bind].
  revert g. induction symbols as [|s symbols IH]; intros g; cbn [foldM flat_map].
  - exists g. repeat split; intros; cbn; try lia.
  - cbn [nsub NumR].
    change (let '(t, y) := window_fb t0 (normalise_y waveform_y min_y (max_y - min_y)) w t_sym s in _) with
      (let '(t, y) := window_fb t0 (normalise_y waveform_y min_y (max_y - min_y)) w t_sym s in
       stack_draw fuel true
         (map (fun t => cast ((t + / 2) / 2 * IZR resolution)) t) (map (fun y => cast (y * IZR resolution)) y) g).
    set (v := window_fb t0 (normalise_y waveform_y min_y (max_y - min_y)) w t_sym s).
    assert (Ep : (let '(t, y) := v in stack_draw fuel true
         (map (fun t => cast ((t + / 2) / 2 * IZR resolution)) t) (map (fun y => cast (y * IZR resolution)) y) g) =
         Ok (draw_points (symbol_pixels s) g)).
    { unfold symbol_pixels. fold v. destruct v as [t y]. unfold stack_draw, points. cbn [fst snd].
      rewrite combine_map. do 2 f_equal. apply map_ext. intros p. unfold pixel_of.
      replace (1/2) with (/2) by lra. reflexivity. }
    rewrite Ep. destruct (draw_points_full (symbol_pixels s) g) as (N1 & N2 & A1).
    destruct (IH (draw_points (symbol_pixels s) g)) as (g' & E & N3 & N4 & A2).
    exists g'. split; [exact E|]. rewrite N1 in N3, A2. rewrite N2 in N4, A2.
    split; [congruence|]. split; [congruence|]. eapply adds_visits_trans; eassumption.
Qed.

Lemma step_eq fuel (pc : bool) s g : 
  (let '(t, y) := window_fb t0 (normalise_y waveform_y min_y (max_y - min_y)) w t_sym s in
   stack_draw fuel pc (map (fun t => cast ((t + / 2) / 2 * IZR resolution)) t) (map (fun y => cast (y * IZR resolution)) y) g) =
  if pc then Ok (draw_points (symbol_pixels s) g) else draw fuel (symbol_pixels s) g.
Proof.
  unfold symbol_pixels. set (v := window_fb _ _ _ _ _). destruct v as [t y]. unfold stack_draw, points. cbn [fst snd].
  rewrite combine_map.
  assert (E : map (fun p : R * R => (cast ((fst p + / 2) / 2 * IZR resolution), cast (snd p * IZR resolution))) (combine t y) =
    map pixel_of (combine t y)).
  { apply map_ext. intros p. unfold pixel_of. replace (1/2) with (/2) by lra. reflexivity. }
  rewrite E. reflexivity.
Qed.

Lemma stack_lines symbols :
  (forall s, In s symbols -> 0 <= snd s - w /\ snd s + w < Z.of_nat (length waveform_y))%Z ->
  exists ptsl, Forall2 raster_polyline (map symbol_pixels symbols) ptsl /\
  exists enough, forall fuel g, (enough <= fuel)%nat -> exists g',
    stack int_of_float cast fuel waveform_y symbols t_delta t_sym min_y max_y resolution g false = Ok g' /\
    n_x g' = n_x g /\ n_y g' = n_y g /\ adds_visits (n_x g) (n_y g) (cell g) (cell g') (concat ptsl).
Proof.
  intros Hfit. destruct (i_width_R _ _ _ Hs Hd Ew) as (Hw & _).
  destruct (window_axis_length _ _ _ _ Et) as [H0 Hl].
  unfold stack. rewrite Ew. cbn [bind]. rewrite Et. cbn [bind]. cbn [nsub NumR].
  induction symbols as [|s symbols IH].
  - exists []. split; [constructor|]. exists O. intros fuel g _. exists g. cbn. repeat split; intros; cbn; try lia.
  - destruct (IH ltac:(intros; apply Hfit; right; assumption)) as (ptsl & F & en & G). clear IH.
    assert (Hlen : length (symbol_pixels s) = Z.to_nat (w * 2 + 1)).
    { unfold symbol_pixels. rewrite map_length. unfold points. rewrite combine_length.
      destruct (window_agree t0 (normalise_y waveform_y min_y (max_y - min_y)) w t_sym s H0 Hl
        ltac:(rewrite normalise_length; apply Hfit; left; reflexivity)) as (_ & L1 & L2 & _).
      rewrite L1, L2, Hl. apply Nat.min_id. }
    destruct (symbol_pixels s) as [|p [|q ps]] eqn:Esp; [cbn in Hlen; lia|cbn in Hlen; lia|].
    destruct (draw_polyline_full p q ps) as (pts & Hr & en1 & D).
    exists (pts :: ptsl). split; [cbn [map]; rewrite Esp; constructor; assumption|].
    exists (Nat.max en en1). intros fuel g Hf. cbn [foldM].
    pose proof (step_eq fuel false s g) as Es. cbn [nadd ndiv nmul nofZ nhalf NumR] in * .
    rewrite Es, Esp. destruct (D fuel g ltac:(lia)) as (g1 & E1 & N1 & N2 & A1). unfold pixel in E1. rewrite E1.
    destruct (G fuel g1 ltac:(lia)) as (g' & E & N3 & N4 & A2).
    exists g'. split; [exact E|]. rewrite N1 in N3, A2. rewrite N2 in N4, A2.
    split; [congruence|]. split; [congruence|]. cbn [concat]. eapply adds_visits_trans; eassumption.
Qed.

Lemma stack_c_agree fuel symbols g pc :
  (forall s, In s symbols -> 0 <= snd s - w /\ snd s + w < Z.of_nat (length waveform_y))%Z ->
  stack_c int_of_float cast fuel waveform_y symbols t_delta t_sym min_y max_y resolution g pc =
  stack int_of_float cast fuel waveform_y symbols t_delta t_sym min_y max_y resolution g pc.
Proof.
  intros Hfit. destruct (window_axis_length _ _ _ _ Et) as [H0 Hl].
  unfold stack, stack_c. rewrite Ew. cbn [bind]. rewrite Et. cbn [bind]. cbn [nsub nadd ndiv nmul nofZ nhalf NumR].
  apply foldM_ext_in. intros g0 s Hin. rewrite map_length.
  set (wave := normalise_y waveform_y min_y (max_y - min_y)).
  assert (Hwl : length wave = length waveform_y) by apply map_length.
  rewrite mapM_seq_nth by (rewrite ?map_length, ?Hwl, ?Hl; specialize (Hfit s Hin); lia). cbn [bind].
  unfold window_fb. specialize (Hfit s Hin). rewrite pyslice_inside by lia.
  replace (snd s + w + 1 - (snd s - w))%Z with (w * 2 + 1)%Z by lia.
  rewrite skipn_map, firstn_map, !map_map. rewrite Hl. f_equal. apply map_ext. intros t. f_equal.
  cbn [nsub nadd ndiv nmul nofZ nhalf NumR]. field. lra.
Qed.
End Stack.

(** *** Column normalisation *)
Lemma fold_sum_from (f : nat -> R) l : forall a, fold_left (fun acc y => acc + f y) l a = a + rsum (map f l).
Proof. induction l as [|x l IH]; intros a; cbn [fold_left map]; [unfold rsum; cbn; lra|]. rewrite IH. unfold rsum. cbn [fold_right]. lra. Qed.
Lemma rsum_rev (l : list R) : rsum (rev l) = rsum l.
Proof.
  assert (A : forall l1 l2, rsum (l1 ++ l2) = rsum l1 + rsum l2).
  { unfold rsum. induction l1 as [|x l1 IH]; intros l2; cbn [app fold_right]; [lra|]. rewrite IH. lra. }
  induction l as [|x l IH]; [reflexivity|]. cbn [rev]. rewrite A, IH. unfold rsum. cbn. lra.
Qed.
Lemma rev_seq_map n : map (fun row => (n - 1 - row)%nat) (seq 0 n) = rev (seq 0 n).
Proof.
  apply list_eq_nth; [rewrite map_length, rev_length; reflexivity|]. intros i Hi. rewrite map_length, seq_length in Hi.
  rewrite nth_error_rev_seq by exact Hi. rewrite nth_error_map.
  rewrite (nth_error_nth' _ O) by (rewrite seq_length; exact Hi). rewrite seq_nth by exact Hi. reflexivity.
Qed.
Lemma rsum_scale (f : nat -> R) k l : rsum (map (fun y => f y * k) l) = rsum (map f l) * k.
Proof. unfold rsum. induction l as [|x l IH]; cbn [map fold_right]; [lra|]. rewrite IH. lra. Qed.

Lemma rotated_column (res : Z) (raw : Z -> Z -> R) x : (0 <= res)%Z ->
  rsum (map (fun row => raw x (res - 1 - Z.of_nat row)%Z) (seq 0 (Z.to_nat res))) =
  rsum (map (fun y => raw x (Z.of_nat y)) (seq 0 (Z.to_nat res))).
Proof.
  intros Hr. rewrite <- (rsum_rev (map (fun y => raw x (Z.of_nat y)) _)), <- map_rev, <- rev_seq_map, map_map.
  f_equal. apply map_ext_in. intros i Hi. apply in_seq in Hi. f_equal. lia.
Qed.

Lemma count_sum_pos (f : nat -> Z) l : (forall y, In y l -> (0 <= f y)%Z) -> (exists y, In y l /\ f y <> 0%Z) ->
  1 <= rsum (map (fun y => IZR (f y)) l).
Proof.
  induction l as [|x l IH]; intros Hf (y & Hin & Hy); [destruct Hin|].
  assert (Hpos : 0 <= rsum (map (fun y => IZR (f y)) l)).
  { clear -Hf. unfold rsum. induction l as [|z l IH]; cbn [map fold_right]; [lra|].
    assert (0 <= IZR (f z)) by (apply (IZR_le 0); apply Hf; right; left; reflexivity).
    assert (0 <= fold_right Rplus 0 (map (fun y => IZR (f y)) l))
      by (apply IH; intros u [<-|Hu]; apply Hf; [left; reflexivity|right; right; exact Hu]). lra. }
  pose proof (Hf x (or_introl eq_refl)) as Hx. cbn [map]. unfold rsum in * ; cbn [fold_right] in * .
  destruct Hin as [<-|Hin].
  - assert (1 <= IZR (f x)) by (apply (IZR_le 1); lia). lra.
  - assert (0 <= IZR (f x)) by (apply (IZR_le 0); exact Hx).
    assert (1 <= fold_right Rplus 0 (map (fun y => IZR (f y)) l))
      by (apply IH; [intros; apply Hf; right; assumption|exists y; split; assumption]). lra.
Qed.

Lemma column_normalised (res : Z) (c : Z -> Z -> Z) (n_sym : Z) x : (0 <= res)%Z ->
  (forall y, (0 <= c x y)%Z) ->
  let raw := fun x y => IZR (c x y) in
  let img := fun row col => raw col (res - 1 - row)%Z * (IZR n_sym / amax 1 (column_sum res raw col)) in
  rsum (map (fun row => img (Z.of_nat row) x) (seq 0 (Z.to_nat res))) =
    if existsb (fun y => negb (Z.eqb (c x (Z.of_nat y)) 0)) (seq 0 (Z.to_nat res)) then IZR n_sym else 0.
Proof.
  intros Hr Hc raw img. unfold img.
  rewrite (rsum_scale (fun row => raw x (res - 1 - Z.of_nat row)%Z)).
  rewrite (rotated_column res raw x Hr).
  assert (Es : column_sum res raw x = rsum (map (fun y => raw x (Z.of_nat y)) (seq 0 (Z.to_nat res)))).
  { unfold column_sum. cbn [nadd nofZ NumR]. rewrite (fold_sum_from (fun y => raw x (Z.of_nat y))). cbn [nofZ NumR]. lra. }
  rewrite Es. set (S := rsum _).
  destruct (existsb _ _) eqn:Ex.
  - apply existsb_exists in Ex. destruct Ex as (y & Hin & Hy). apply negb_true_iff, Z.eqb_neq in Hy.
    assert (1 <= S) by (apply count_sum_pos; [intros; apply Hc|exists y; split; assumption]).
    unfold amax. cbn [nlt ndiv nofZ NumR]. destruct (Rltb 1 S) eqn:E.
    + field. lra.
    + apply Rltb_false in E. replace S with 1 by lra. field.
  - assert (S = 0) as ->; [|lra]. unfold S, raw.
    assert (Z0 : forall y, In y (seq 0 (Z.to_nat res)) -> c x (Z.of_nat y) = 0%Z).
    { intros y Hin. destruct (Z.eqb_spec (c x (Z.of_nat y)) 0) as [|Hy]; [assumption|].
      exfalso. rewrite <- not_true_iff_false in Ex. apply Ex. apply existsb_exists. exists y. split; [exact Hin|].
      apply negb_true_iff, Z.eqb_neq. exact Hy. }
    clear -Z0. induction (seq 0 (Z.to_nat res)) as [|y l IH]; [reflexivity|]. cbn [map]. unfold rsum in * ; cbn [fold_right].
    rewrite IH, (Z0 y) by (try (left; reflexivity); intros; apply Z0; right; assumption). lra.
Qed.

(** *** Whole heat map *)
Section Heat.
Variables (cast : R -> Z) (t_delta t_sym y_zero y_ua : R) (resolution : Z) (w : Z) (t0 : list R).
Hypothesis Hs : 0 < t_sym.
Hypothesis Hd : 0 < t_delta.
Hypothesis Ew : get_i_width int_of_float t_sym t_delta = Ok w.
Hypothesis Et : window_axis w t_sym t_delta = Ok t0.
Let min_y := - (1/2) * y_ua + y_zero.
Let max_y := 3/2 * y_ua + y_zero.
Definition wave_pixels (wv : list R * list (@symbol R)) : list (Z * Z) :=
  flat_map (symbol_pixels cast (fst wv) t_sym (- (1/2) * y_ua + y_zero) (3/2 * y_ua + y_zero) resolution w t0) (snd wv).
Let zeros := {| n_x := resolution; n_y := resolution; cell := fun _ _ => 0%Z |}.

Lemma limits_eq : (neg nhalf *. y_ua +. y_zero)%num = min_y /\ ((one +. nhalf) *. y_ua +. y_zero)%num = max_y.
Proof. unfold neg, one, min_y, max_y. cbn. split; lra. Qed.

Lemma waves_point_cloud fuel waves : forall g, exists g',
  foldM (fun g wv => stack int_of_float cast fuel (fst wv) (snd wv) t_delta t_sym min_y max_y resolution g true) g waves = Ok g' /\
  n_x g' = n_x g /\ n_y g' = n_y g /\
  adds_visits (n_x g) (n_y g) (cell g) (cell g') (flat_map wave_pixels waves).
Proof.
  induction waves as [|wv waves IH]; intros g; cbn [foldM flat_map].
  - exists g. repeat split; intros; cbn; try lia.
  - destruct (stack_point_cloud cast (fst wv) t_delta t_sym min_y max_y resolution w t0 Ew Et fuel (snd wv) g)
      as (g1 & E1 & N1 & N2 & A1).
    rewrite E1. destruct (IH g1) as (g' & E & N3 & N4 & A2). exists g'. split; [exact E|].
    rewrite N1 in N3, A2. rewrite N2 in N4, A2. split; [congruence|]. split; [congruence|].
    eapply adds_visits_trans; eassumption.
Qed.

Lemma visits_nonneg a b l : (0 <= visits a b l)%Z. Proof. unfold visits. lia. Qed.
Lemma visits_pos a b l : visits a b l <> 0%Z <-> In (a, b) l.
Proof.
  unfold visits. split.
  - intros Hv. destruct (filter (fun p : Z * Z => (fst p =? a)%Z && (snd p =? b)%Z) l) as [|p f] eqn:E; [cbn in Hv; lia|].
    assert (Hin : In p (filter (fun p => (fst p =? a)%Z && (snd p =? b)%Z) l)) by (rewrite E; left; reflexivity).
    apply filter_In in Hin. destruct Hin as [Hin Hp]. apply andb_true_iff in Hp. rewrite !Z.eqb_eq in Hp.
    destruct p as [p1 p2]. cbn in Hp. destruct Hp as [-> ->]. exact Hin.
  - intros Hin. assert (Hf : In (a, b) (filter (fun p => (fst p =? a)%Z && (snd p =? b)%Z) l)).
    { apply filter_In. split; [exact Hin|]. cbn. rewrite !Z.eqb_refl. reflexivity. }
    destruct (filter (fun p : Z * Z => (fst p =? a)%Z && (snd p =? b)%Z) l); [destruct Hf|]. cbn. lia.
Qed.

Lemma step5_point_cloud fuel waves n_sym : (0 <= resolution)%Z ->
  exists img, step5_heatmap int_of_float cast fuel t_delta t_sym y_zero y_ua waves resolution true n_sym = Ok img /\
  forall col, (0 <= col < resolution)%Z ->
    ((exists row, (0 <= row < resolution)%Z /\ In (col, row) (flat_map wave_pixels waves)) ->
       rsum (map (fun row => img (Z.of_nat row) col) (seq 0 (Z.to_nat resolution))) = IZR n_sym) /\
    (exists k, forall row, (0 <= row < resolution)%Z ->
       img row col = k * IZR (visits col (resolution - 1 - row) (flat_map wave_pixels waves))).
Proof.
  intros Hr. unfold step5_heatmap. cbv zeta. destruct limits_eq as [E1 E2]. rewrite E1, E2.
  destruct (waves_point_cloud fuel waves zeros) as (g & E & _ & _ & A). unfold zeros in E. rewrite E. cbn [bind].
  set (raw := fun x y => IZR (cell g x y)).
  exists (fun row col => raw col (resolution - 1 - row)%Z * (IZR n_sym / amax 1 (column_sum resolution raw col))).
  split; [reflexivity|]. cbn [n_x n_y cell zeros] in A.
  assert (Hcell : forall x y, (0 <= x < resolution)%Z -> (0 <= y < resolution)%Z ->
                    cell g x y = visits x y (flat_map wave_pixels waves)).
  { intros x y Hx Hy. destruct (A x y) as [A1 _]. rewrite A1; [|split; assumption]. lia. }
  assert (Hnn : forall x y, (0 <= cell g x y)%Z).
  { intros x y. destruct (A x y) as [A1 A2].
    destruct (Z_le_dec 0 x), (Z_lt_dec x resolution), (Z_le_dec 0 y), (Z_lt_dec y resolution);
      first [rewrite A1 by (unfold inside; lia); pose proof (visits_nonneg x y (flat_map wave_pixels waves)); lia
            |rewrite A2 by (unfold inside; lia); lia]. }
  intros col Hc. split.
  - intros (row & Hrow & Hin).
    pose proof (column_normalised resolution (cell g) n_sym col Hr (Hnn col)) as Q. cbv zeta in Q.
    fold raw in Q. etransitivity; [exact Q|].
    assert (Ex : existsb (fun y => negb (cell g col (Z.of_nat y) =? 0)%Z) (seq 0 (Z.to_nat resolution)) = true).
    { apply existsb_exists. exists (Z.to_nat row). split; [apply in_seq; lia|].
      apply negb_true_iff, Z.eqb_neq. rewrite Z2Nat.id by lia. rewrite Hcell by lia. apply visits_pos. exact Hin. }
    rewrite Ex. reflexivity.
  - exists (IZR n_sym / amax 1 (column_sum resolution raw col)). intros row Hrow. unfold raw.
    rewrite Hcell by lia. ring.
Qed.

Lemma step5_lines waves n_sym : (0 <= resolution)%Z ->
  (forall wv s, In wv waves -> In s (snd wv) -> 0 <= snd s - w /\ snd s + w < Z.of_nat (length (fst wv)))%Z ->
  exists ptsl, Forall2 raster_polyline
    (flat_map (fun wv => map (symbol_pixels cast (fst wv) t_sym (- (1/2) * y_ua + y_zero) (3/2 * y_ua + y_zero) resolution w t0) (snd wv)) waves) ptsl /\
  exists enough, forall fuel, (enough <= fuel)%nat -> exists img,
    step5_heatmap int_of_float cast fuel t_delta t_sym y_zero y_ua waves resolution false n_sym = Ok img /\
    forall row col, (0 <= col < resolution)%Z -> (0 <= row < resolution)%Z ->
      img row col = IZR (visits col (resolution - 1 - row) (concat ptsl)).
Proof.
  intros Hr Hfit.
  assert (G : exists ptsl, Forall2 raster_polyline
    (flat_map (fun wv => map (symbol_pixels cast (fst wv) t_sym min_y max_y resolution w t0) (snd wv)) waves) ptsl /\
    exists enough, forall fuel g, (enough <= fuel)%nat -> exists g',
    foldM (fun g wv => stack int_of_float cast fuel (fst wv) (snd wv) t_delta t_sym min_y max_y resolution g false) g waves = Ok g' /\
    n_x g' = n_x g /\ n_y g' = n_y g /\ adds_visits (n_x g) (n_y g) (cell g) (cell g') (concat ptsl)).
  { induction waves as [|wv waves IH].
    - exists []. split; [constructor|]. exists O. intros fuel g _. exists g. cbn. repeat split; intros; cbn; try lia.
    - destruct (IH ltac:(intros; eapply Hfit; [right; eassumption|assumption])) as (ptsl & F & en & G).
      destruct (stack_lines cast (fst wv) t_delta t_sym min_y max_y resolution w t0 Hs Hd Ew Et (snd wv)
        ltac:(intros; apply (Hfit wv); [left; reflexivity|assumption])) as (ptsl1 & F1 & en1 & G1).
      exists (ptsl1 ++ ptsl). split; [cbn [flat_map]; apply Forall2_app; assumption|].
      exists (Nat.max en en1). intros fuel g Hf. cbn [foldM].
      destruct (G1 fuel g ltac:(lia)) as (g1 & E1 & N1 & N2 & A1). match goal with |- context [match ?x with Ok _ => _ | Err _ => _ end] => change x with (stack int_of_float cast fuel (fst wv) (snd wv) t_delta t_sym min_y max_y resolution g false) end.
      rewrite E1.
      destruct (G fuel g1 ltac:(lia)) as (g' & E & N3 & N4 & A2). exists g'. split; [exact E|].
      rewrite N1 in N3, A2. rewrite N2 in N4, A2. split; [congruence|]. split; [congruence|].
      rewrite concat_app. eapply adds_visits_trans; eassumption. }
  destruct G as (ptsl & F & en & G). exists ptsl. split; [exact F|]. exists en. intros fuel Hf.
  destruct (G fuel zeros Hf) as (g & E & _ & _ & A). cbn [n_x n_y cell zeros] in A.
  exists (fun row col => IZR (cell g col (resolution - 1 - row))). split.
  - unfold step5_heatmap. cbv zeta. destruct limits_eq as [E1 E2]. rewrite E1, E2. unfold zeros in E. rewrite E.
    reflexivity.
  - intros row col Hc Hrow. destruct (A col (resolution - 1 - row)%Z) as [A1 _]. rewrite A1 by (unfold inside; lia).
    reflexivity.
Qed.
End Heat.
