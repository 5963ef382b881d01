(** Proofs for C70: the order of the records. *)
From Coq Require Import ZArith Reals Bool List Lia Lra FunctionalExtensionality Permutation Sorting.Sorted.
Import ListNotations.
From Verif Require CdrModel EyeRProofs UncertainProofs ReportProofs.
From Verif Require Import Base Num RBool DrawModel LinesModel StatsModel MaskModel EyeModel EyeSpec Pam2Model EyeImageModel EyeRunModel EyeRunSpec EyeRunProofs EyeUnitsSpec EyeOrderSpec.
Local Open Scope R_scope.
Local Open Scope result_scope.

(** ** Picking *)
Section Pick.
Lemma pick_map {X Y} (f : X -> Y) p l : pick p (map f l) = map f (pick p l).
Proof. unfold pick. induction p as [|i p IH]; [reflexivity|]. cbn [flat_map]. rewrite IH, map_app, nth_error_map. destruct (nth_error l i); reflexivity. Qed.
Lemma nth_error_combine {X Y} (a : list X) : forall (b : list Y) i, nth_error (combine a b) i = match nth_error a i, nth_error b i with Some x, Some y => Some (x, y) | _, _ => None end.
Proof. induction a as [|x a IH]; intros [|y b] [|i]; try reflexivity; cbn [combine nth_error]; [destruct (nth_error a i); reflexivity|apply IH]. Qed.
Lemma pick_combine {X Y} p (a : list X) (b : list Y) : length a = length b -> pick p (combine a b) = combine (pick p a) (pick p b).
Proof.
  intros L. unfold pick. induction p as [|i p IH]; [reflexivity|]. cbn [flat_map]. rewrite IH, nth_error_combine. destruct (nth_error a i) as [x|] eqn:A; destruct (nth_error b i) as [y|] eqn:B; try reflexivity.
  - apply nth_error_None in B. assert (nth_error a i <> None) by congruence. apply nth_error_Some in H. lia.
  - apply nth_error_None in A. assert (nth_error b i <> None) by congruence. apply nth_error_Some in H. lia.
Qed.
Lemma pick_seq {X} (l : list X) : pick (seq 0 (length l)) l = l.
Proof.
  assert (G : forall (l a : list X), flat_map (fun i => match nth_error (a ++ l) i with Some x => [x] | None => [] end) (seq (length a) (length l)) = l).
  { clear. induction l as [|x l IH]; intros a; [reflexivity|]. cbn [length seq flat_map]. rewrite nth_error_app2 by lia. rewrite Nat.sub_diag. cbn [nth_error app]. f_equal. specialize (IH (a ++ [x])). rewrite <- app_assoc in IH. cbn [app] in IH. rewrite app_length in IH. cbn [length] in IH. replace (length a + 1)%nat with (S (length a)) in IH by lia. exact IH. }
  exact (G l []).
Qed.
Lemma pick_perm {X} p (l : list X) : order (length l) p -> Permutation (pick p l) l.
Proof. intros O. rewrite <- (pick_seq l) at 2. unfold pick. apply Permutation_flat_map. exact O. Qed.
Lemma pick_length {X} p (l : list X) : order (length l) p -> length (pick p l) = length l.
Proof. intros O. apply Permutation_length, pick_perm, O. Qed.
Lemma pick_Forall2 {X Y} (Q : X -> Y -> Prop) p l l' : Forall2 Q l l' -> Forall2 Q (pick p l) (pick p l').
Proof.
  intros F. unfold pick. induction p as [|i p IH]; [constructor|]. cbn [flat_map]. apply Forall2_app; [|exact IH]. clear IH. revert i. induction F as [|x y l l' H F IH]; intros [|i]; cbn [nth_error]; [constructor..|repeat constructor; exact H|apply IH].
Qed.
Lemma mapM_pick {X Y} (f : X -> result Y) p l ys : mapM f l = Ok ys -> mapM f (pick p l) = Ok (pick p ys).
Proof. intros E. apply ReportProofs.Forall2_mapM. apply pick_Forall2. apply ReportProofs.mapM_Forall2. exact E. Qed.
Lemma nth_error_pick {X} p (l : list X) : Forall (fun i => i < length l)%nat p -> forall j, nth_error (pick p l) j = match nth_error p j with Some i => nth_error l i | None => None end.
Proof.
  unfold pick. induction 1 as [|i p H F IH]; intros j; [destruct j; reflexivity|]. cbn [flat_map]. destruct (nth_error l i) as [x|] eqn:E; [|apply nth_error_None in E; lia]. destruct j as [|j]; cbn [app nth_error]; [congruence|apply IH].
Qed.
Lemma order_bound n p : order n p -> Forall (fun i => i < n)%nat p.
Proof. intros O. apply Forall_forall. intros i I. apply (Permutation_in _ O) in I. apply in_seq in I. lia. Qed.
Lemma order_length n p : order n p -> length p = n.
Proof. intros O. rewrite (Permutation_length O). apply seq_length. Qed.

(** The order back. *)
Fixpoint place (i : nat) (p : list nat) : nat := match p with [] => O | x :: p => if (x =? i)%nat then O else S (place i p) end.
Lemma place_at i p : In i p -> nth_error p (place i p) = Some i.
Proof. induction p as [|x p IH]; intros I; [destruct I|]. cbn [place]. destruct (Nat.eqb_spec x i) as [->|N]; [reflexivity|]. destruct I as [->|I]; [congruence|]. exact (IH I). Qed.
Definition back (n : nat) (p : list nat) : list nat := map (fun i => place i p) (seq 0 n).
Lemma NoDup_map_in {X Y} (f : X -> Y) l : (forall a b, In a l -> In b l -> f a = f b -> a = b) -> NoDup l -> NoDup (map f l).
Proof.
  intros H N. induction N as [|x l NI N IH]; [constructor|]. cbn [map]. constructor; [|apply IH; intros a b A B; apply H; right; assumption]. intros I. apply in_map_iff in I. destruct I as (y & E & J). apply NI. rewrite <- (H y x (or_intror J) (or_introl eq_refl) E). exact J.
Qed.
Lemma back_order n p : order n p -> order n (back n p).
Proof.
  intros O. unfold order, back. apply NoDup_Permutation_bis.
  - apply NoDup_map_in; [|apply seq_NoDup]. intros a b A B E. apply (Permutation_in _ (Permutation_sym O)) in A. apply (Permutation_in _ (Permutation_sym O)) in B. apply place_at in A. apply place_at in B. congruence.
  - rewrite map_length. reflexivity.
  - intros j J. apply in_map_iff in J. destruct J as (i & <- & I). apply (Permutation_in _ (Permutation_sym O)) in I. apply place_at in I. assert (S : nth_error p (place i p) <> None) by congruence. apply nth_error_Some in S. rewrite (order_length n p O) in S. apply in_seq. lia.
Qed.
Lemma back_nth n p i : order n p -> (i < n)%nat -> nth (nth i (back n p) 0%nat) p 0%nat = i /\ (nth i (back n p) 0%nat < n)%nat.
Proof.
  intros O I. assert (N : nth i (back n p) 0%nat = place i p). { unfold back. rewrite (nth_indep _ 0%nat (place 0%nat p)) by (rewrite map_length, seq_length; exact I). rewrite (map_nth (fun i => place i p)), seq_nth by exact I. reflexivity. }
  rewrite N. assert (J : In i p) by (apply (Permutation_in _ (Permutation_sym O)); apply in_seq; lia). apply place_at in J. split; [apply nth_error_nth; exact J|]. assert (S : nth_error p (place i p) <> None) by congruence. apply nth_error_Some in S. rewrite (order_length n p O) in S. exact S.
Qed.
Lemma pick_back {X} p (l : list X) : order (length l) p -> pick (back (length l) p) (pick p l) = l.
Proof.
  intros O. assert (B : Forall (fun i => i < length (pick p l))%nat (back (length l) p)) by (rewrite (pick_length p l O); apply order_bound, back_order, O). transitivity (pick (seq 0 (length l)) l); [|apply pick_seq]. unfold pick at 1 3. unfold back. rewrite flat_map_concat_map, map_map, <- flat_map_concat_map. apply flat_map_ext. intros i.
  rewrite (nth_error_pick p l (order_bound _ _ O)). destruct (In_dec Nat.eq_dec i p) as [I|I]; [rewrite (place_at i p I); reflexivity|].
  assert (N1 : nth_error p (place i p) = None). { clear B O. induction p as [|x p IH]; [reflexivity|]. cbn [place]. destruct (Nat.eqb_spec x i) as [->|N]; [destruct I; left; reflexivity|]. apply IH. intros J. apply I. right. exact J. }
  rewrite N1. assert (N2 : nth_error l i = None). { apply nth_error_None. destruct (Nat.le_gt_cases (length l) i) as [L|L]; [exact L|]. destruct I. apply (Permutation_in _ (Permutation_sym O)). apply in_seq. lia. } rewrite N2. reflexivity.
Qed.
End Pick.

(** ** Order-free sums, extremes, sorting *)
Lemma fold_left_perm {S X} (f : S -> X -> S) : (forall s x y, f (f s x) y = f (f s y) x) -> forall l l', Permutation l l' -> forall s, fold_left f l s = fold_left f l' s.
Proof. intros C l l' P. induction P as [|x l l' P IH|x y l|l1 l2 l3 P1 IH1 P2 IH2]; intros s; cbn [fold_left]; [reflexivity|apply IH|rewrite C; reflexivity|rewrite IH1; apply IH2]. Qed.
Lemma sorted_unique (l : list R) : StronglySorted Rle l -> forall l', StronglySorted Rle l' -> Permutation l l' -> l = l'.
Proof.
  induction 1 as [|x l S IH F]; intros l' S' P; [apply Permutation_nil in P; congruence|]. destruct S' as [|y l' S' F']; [apply Permutation_sym, Permutation_nil in P; discriminate|].
  assert (XY : x = y). { rewrite Forall_forall in F, F'. assert (A : In x (y :: l')) by (apply (Permutation_in _ P); left; reflexivity). assert (B : In y (x :: l)) by (apply (Permutation_in _ (Permutation_sym P)); left; reflexivity). destruct A as [A|A]; [congruence|]. destruct B as [B|B]; [congruence|]. apply Rle_antisym; [apply F; exact B|apply F'; exact A]. }
  subst y. f_equal. apply IH; [exact S'|]. apply Permutation_cons_inv in P. exact P.
Qed.
Lemma sorted_perm (l l' : list R) : Permutation l l' -> sorted l = sorted l'.
Proof. intros P. destruct (EyeRProofs.sorted_R l) as (S & Q). destruct (EyeRProofs.sorted_R l') as (S' & Q'). apply sorted_unique; [exact S|exact S'|]. rewrite <- Q, <- Q'. exact P. Qed.
Lemma concat_perm {X} (l l' : list (list X)) : Permutation l l' -> Permutation (concat l) (concat l').
Proof. intros P. rewrite <- (map_id l), <- (map_id l'), <- !flat_map_concat_map. apply Permutation_flat_map. exact P. Qed.
Lemma mean_perm l l' : Permutation l l' -> CdrModel.mean l = CdrModel.mean (l' : list R).
Proof. intros P. unfold CdrModel.mean, CdrModel.nsum. rewrite (Permutation_length P). f_equal. apply fold_left_perm; [|exact P]. intros s x y. cbn. ring. Qed.
Lemma ptp_perm l l' : Permutation l l' -> ptp l = ptp l'.
Proof.
  intros P. unfold ptp. destruct l as [|x l]; [apply Permutation_nil in P; subst; reflexivity|]. destruct l' as [|x' l']; [apply Permutation_sym, Permutation_nil in P; discriminate|]. f_equal.
  assert (G : forall (f : R -> R -> R), (forall a, f a a = a) -> (forall a b c, f (f a b) c = f (f a c) b) -> (forall a b, f a b = f b a) -> fold_left f l x = fold_left f l' x').
  { intros f I C S. assert (E : forall y k, fold_left f k y = fold_left f (y :: k) y) by (intros; cbn [fold_left]; rewrite I; reflexivity).
    assert (K : forall y k, In y k -> fold_left f k y = fold_left f k (hd y k)).
    { intros y k J. destruct k as [|z k]; [destruct J|]. cbn [hd]. destruct (in_split _ _ J) as (a & b & Q). rewrite Q. assert (PP : Permutation (a ++ y :: b) (y :: a ++ b)) by (symmetry; apply Permutation_middle). 
      rewrite !(fold_left_perm f C _ _ PP). cbn [fold_left]. rewrite I. assert (Z : In z (y :: a ++ b)) by (apply (Permutation_in _ PP); rewrite <- Q; left; reflexivity). destruct Z as [->|Z]; [rewrite I; reflexivity|].
      destruct (in_split _ _ Z) as (a' & b' & Q'). rewrite Q'. assert (PP' : Permutation (a' ++ z :: b') (z :: a' ++ b')) by (symmetry; apply Permutation_middle). rewrite !(fold_left_perm f C _ _ PP'). cbn [fold_left]. f_equal. rewrite (C z y z), I. apply S. }
    rewrite (E x l), (E x' l'). rewrite (fold_left_perm f C _ _ P). rewrite (K x (x' :: l')); [reflexivity|]. apply (Permutation_in _ P). left. reflexivity. }
  rewrite (G Rmax), (G Rmin); [reflexivity|..].
  - intros a. apply Rmin_left. lra.
  - intros a b c. rewrite <- !Rmin_assoc. f_equal. apply Rmin_comm.
  - apply Rmin_comm.
  - intros a. apply Rmax_left. lra.
  - intros a b c. rewrite <- !Rmax_assoc. f_equal. apply Rmax_comm.
  - apply Rmax_comm.
Qed.
Lemma bathtub_perm (l l' : list R) : Permutation l l' -> bathtub l = bathtub l'.
Proof. intros P. unfold bathtub. rewrite (sorted_perm l l' P). reflexivity. Qed.

(** ** Records *)
Lemma waves_reordered p w w' : order (dim w 0) p -> reordered p w w' -> waves w' = pick p (waves w).
Proof.
  intros O (T & S & A). unfold waves. assert (D : forall k, dim w' k = dim w k) by (intros; unfold dim; rewrite S; reflexivity). rewrite D.
  assert (PS : pick p (seq 0 (dim w 0)) = p).
  { pose proof (order_bound _ _ O) as B. clear -B. unfold pick. induction B as [|i p I F IH]; [reflexivity|]. cbn [flat_map]. rewrite IH. rewrite (nth_error_nth' _ 0%nat) by (rewrite seq_length; exact I). rewrite seq_nth by exact I. reflexivity. }
  rewrite pick_map, PS. set (g := fun i => (row w i 0, row w i 1)).
  assert (M : map g p = map (fun i => g (nth i p 0%nat)) (seq 0 (dim w 0))). { rewrite <- (order_length _ _ O). clear. rewrite <- (map_map (fun i => nth i p 0%nat) g). f_equal. induction p as [|x p IH]; [reflexivity|]. cbn [length seq map nth]. f_equal. rewrite <- seq_shift, map_map. exact IH. }
  rewrite M. apply map_ext_in. intros i I. apply in_seq in I. unfold g, row. rewrite D. f_equal; apply map_ext; intros j; apply A; lia.
Qed.
Lemma waves_length w : length (waves w) = dim w 0.
Proof. unfold waves. rewrite map_length. apply seq_length. Qed.

Lemma Forall2_len {X Y} (Q : X -> Y -> Prop) l l' : Forall2 Q l l' -> length l = length l'.
Proof. induction 1; cbn [length]; congruence. Qed.
Lemma Forall2_weaken {X Y} (P Q : X -> Y -> Prop) : (forall x y, P x y -> Q x y) -> forall l l', Forall2 P l l' -> Forall2 Q l l'.
Proof. intros H. induction 1; constructor; auto. Qed.
Section Results.
Variable percentile : list R -> R -> R.
Variable cast : R -> Z.
Variable fuel : nat.
Variable draw : drawing.
Hypothesis PV : forall q, of_values (fun l => percentile l q).
Variable p : list nat.
Variable n : nat.
Hypothesis O : order n p.

Lemma period_order edges : length edges = n -> symbol_period (pick p edges) = symbol_period edges.
Proof.
  intros L. assert (P : Permutation (pick p edges) edges) by (apply pick_perm; rewrite L; exact O). unfold symbol_period. destruct edges as [|x l]; [apply Permutation_sym, Permutation_nil in P; rewrite P; reflexivity|]. destruct (pick p (x :: l)) as [|y k] eqn:PE; [apply Permutation_nil in P; discriminate|]. rewrite <- PE in P |- * . clear PE y k. set (e := x :: l) in *  .
  assert (Q : Permutation (concat (map CdrModel.diff (pick p e))) (concat (map CdrModel.diff e))) by (apply concat_perm, Permutation_map, P). rewrite (mean_perm _ _ Q). rewrite (UncertainProofs.usamples_perm _ _ (EyeRProofs.filter_perm _ _ _ Q)). reflexivity.
Qed.
Lemma indexed_combine {X Y Z'} (f : X -> Y -> result Z') (g : X -> result Z') (h : nat -> X -> result Z') (b : list Y) : forall (a : list X) k, (length a + k <= length b)%nat ->
  (forall i x, (k <= i)%nat -> h i x = match nth_error b i with Some y => f x y | None => g x end) ->
  mapM (fun q => h (fst q) (snd q)) (combine (seq k (length a)) a) = mapM (fun q => f (fst q) (snd q)) (combine a (skipn k b)).
Proof.
  induction a as [|x a IH]; intros k L H; [reflexivity|]. cbn [length seq combine mapM fst snd]. rewrite (H k x) by lia. destruct (nth_error b k) as [y|] eqn:B; [|apply nth_error_None in B; cbn [length] in L; lia].
  assert (SK : skipn k b = y :: skipn (S k) b). { clear -B. revert k B. induction b as [|z b IH]; intros [|k] B; try discriminate; [injection B as ->; reflexivity|]. cbn [nth_error] in B. cbn [skipn]. rewrite (IH k B). reflexivity. }
  rewrite SK. cbn [combine mapM fst snd]. rewrite (IH (S k)); [reflexivity|cbn [length] in L; lia|]. intros i z I. apply H. lia.
Qed.
Lemma sample_all_combine t td edges ws : length edges = length ws ->
  sample_all t td edges ws = mapM (fun q => t_zero <- get (fst (fst q)) 0 ;; step3_sample int_of_float float_mod t td t_zero (Z.of_nat (length (fst (fst q)))) (snd q)) (combine ws edges).
Proof.
  intros L. unfold sample_all. pose proof (indexed_combine (fun w e => t_zero <- get (fst w) 0 ;; step3_sample int_of_float float_mod t td t_zero (Z.of_nat (length (fst w))) e) (fun w => t_zero <- get (fst w) 0 ;; Err IndexError)
    (fun i (w : list R * list R) => t_zero <- get (fst w) 0 ;; e <- get edges i ;; step3_sample int_of_float float_mod t td t_zero (Z.of_nat (length (fst w))) e) edges ws 0%nat) as Q.
  cbn [skipn] in Q. rewrite <- Q; [|lia|].
  - apply f_equal2; [|reflexivity]. apply functional_extensionality. intros [i w]. reflexivity.
  - intros i w _. unfold get at 2. destruct (nth_error edges i); destruct (get (fst w) 0); reflexivity.
Qed.
Lemma sample_all_order t td edges ws c : length edges = n -> length ws = n -> sample_all t td edges ws = Ok c -> sample_all t td (pick p edges) (pick p ws) = Ok (pick p c) /\ length c = n.
Proof.
  intros L LW E. rewrite sample_all_combine in E by congruence. rewrite sample_all_combine by (rewrite !pick_length; congruence). rewrite <- pick_combine by congruence. split; [apply mapM_pick; exact E|].
  apply ReportProofs.mapM_Forall2 in E. apply Forall2_len in E. rewrite combine_length in E. lia.
Qed.
Lemma count_order c : length c = n -> count_symbols (pick p c) = count_symbols c.
Proof. intros L. unfold count_symbols. f_equal. apply Permutation_length, concat_perm, pick_perm. rewrite L. exact O. Qed.

(** Vertical and horizontal samples. *)
Lemma merge_fields vs : forall v, let r := fold_left merge vs v in
  v_0 r = v_0 v ++ flat_map v_0 vs /\ v_1 r = v_1 v ++ flat_map v_1 vs /\ v_cross r = v_cross v ++ flat_map v_cross vs /\ v_0_cross r = v_0_cross v ++ flat_map v_0_cross vs
  /\ v_1_cross r = v_1_cross v ++ flat_map v_1_cross vs /\ v_avg r = v_avg v ++ flat_map v_avg vs /\ v_transitions r = fun q => fold_left (fun s (o : @vertical R) => (s + v_transitions o q)%Z) vs (v_transitions v q).
Proof.
  induction vs as [|o vs IH]; intros v; cbn [fold_left flat_map]; [rewrite !app_nil_r; repeat split|]. destruct (IH (merge v o)) as (A & B & C & D & E & F & G). cbv zeta in *  . rewrite A, B, C, D, E, F, G. unfold merge. cbn [v_0 v_1 v_cross v_0_cross v_1_cross v_avg v_transitions]. rewrite !app_assoc. repeat split.
Qed.
Lemma measure_y_perm nf vs vs' : Permutation vs vs' -> measure_y percentile nf (fold_left merge vs no_vertical) = measure_y percentile nf (fold_left merge vs' no_vertical)
  /\ v_transitions (fold_left merge vs no_vertical) = v_transitions (fold_left merge vs' (@no_vertical R)).
Proof.
  intros P. destruct (merge_fields vs no_vertical) as (A & B & C & D & E & F & G). destruct (merge_fields vs' no_vertical) as (A' & B' & C' & D' & E' & F' & G'). cbv zeta in *  .
  assert (FM : forall f : @vertical R -> list R, Permutation (flat_map f vs) (flat_map f vs')) by (intros f; apply Permutation_flat_map; exact P). split.
  - unfold measure_y. rewrite A, B, C, D, E, F, A', B', C', D', E', F'. cbn [no_vertical v_0 v_1 v_cross v_0_cross v_1_cross v_avg app].
    rewrite (UncertainProofs.usamples_perm _ _ (FM v_0)), (UncertainProofs.usamples_perm _ _ (FM v_1)), (UncertainProofs.usamples_perm _ _ (FM v_cross)), (UncertainProofs.usamples_perm _ _ (FM v_0_cross)), (UncertainProofs.usamples_perm _ _ (FM v_1_cross)), (UncertainProofs.usamples_perm _ _ (FM v_avg)).
    f_equal. pose proof (FM v_0) as P0. pose proof (FM v_1) as P1. pose proof (PV (5 / 100) _ _ P1) as Q1. pose proof (PV (9995 / 100) _ _ P0) as Q0. cbv beta in Q0, Q1.
    destruct (flat_map v_0 vs) as [|a l]; destruct (flat_map v_0 vs') as [|a' l']; [reflexivity|apply Permutation_nil in P0; discriminate|apply Permutation_sym, Permutation_nil in P0; discriminate|].
    destruct (flat_map v_1 vs) as [|b k]; destruct (flat_map v_1 vs') as [|b' k']; [reflexivity|apply Permutation_nil in P1; discriminate|apply Permutation_sym, Permutation_nil in P1; discriminate|].
    rewrite Q0, Q1. reflexivity.
  - rewrite G, G'. apply functional_extensionality. intros q. apply fold_left_perm; [intros; lia|exact P].
Qed.
Lemma hmerge_fields hs : forall h, let r := fold_left hmerge hs h in
  h_rise_lower r = h_rise_lower h ++ flat_map h_rise_lower hs /\ h_rise_upper r = h_rise_upper h ++ flat_map h_rise_upper hs /\ h_rise_half r = h_rise_half h ++ flat_map h_rise_half hs
  /\ h_fall_lower r = h_fall_lower h ++ flat_map h_fall_lower hs /\ h_fall_upper r = h_fall_upper h ++ flat_map h_fall_upper hs /\ h_fall_half r = h_fall_half h ++ flat_map h_fall_half hs
  /\ h_left r = h_left h ++ flat_map h_left hs /\ h_right r = h_right h ++ flat_map (@h_right R) hs.
Proof.
  induction hs as [|o hs IH]; intros h; cbn [fold_left flat_map]; [rewrite !app_nil_r; repeat split|]. destruct (IH (hmerge h o)) as (A & B & C & D & E & F & G & H). cbv zeta in *  . rewrite A, B, C, D, E, F, G, H. unfold hmerge. cbn [h_rise_lower h_rise_upper h_rise_half h_fall_lower h_fall_upper h_fall_half h_left h_right]. rewrite !app_assoc. repeat split.
Qed.
Lemma measure_t_perm t hs hs' : Permutation hs hs' -> measure_t t (fold_left hmerge hs no_horizontal) = measure_t t (fold_left hmerge hs' no_horizontal).
Proof.
  intros P. destruct (hmerge_fields hs no_horizontal) as (A & B & C & D & E & F & G & H). destruct (hmerge_fields hs' no_horizontal) as (A' & B' & C' & D' & E' & F' & G' & H'). cbv zeta in *  .
  assert (FM : forall f : @horizontal R -> list R, Permutation (map (fun x => x * t) (flat_map f hs)) (map (fun x => x * t) (flat_map f hs'))) by (intros f; apply Permutation_map, Permutation_flat_map; exact P).
  unfold measure_t. rewrite A, B, C, D, E, F, G, H, A', B', C', D', E', F', G', H'. cbn [no_horizontal h_rise_lower h_rise_upper h_rise_half h_fall_lower h_fall_upper h_fall_half h_left h_right app].
  rewrite (UncertainProofs.usamples_perm _ _ (FM h_rise_lower)), (UncertainProofs.usamples_perm _ _ (FM h_rise_upper)), (UncertainProofs.usamples_perm _ _ (FM h_rise_half)), (UncertainProofs.usamples_perm _ _ (FM h_fall_lower)), (UncertainProofs.usamples_perm _ _ (FM h_fall_upper)), (UncertainProofs.usamples_perm _ _ (FM h_fall_half)), (UncertainProofs.usamples_perm _ _ (FM h_left)), (UncertainProofs.usamples_perm _ _ (FM h_right)), (ptp_perm _ _ (FM h_left)). reflexivity.
Qed.
(** A loop that merges what every record gives. *)
Lemma foldM_mapM {S X Y} (f : S -> X -> result S) (g : X -> result Y) (op : S -> Y -> S) : (forall s x, f s x = (y <- g x ;; Ok (op s y))) -> forall l s, foldM f s l = (ys <- mapM g l ;; Ok (fold_left op ys s)).
Proof.
  intros H. induction l as [|x l IH]; intros s; [reflexivity|]. cbn [foldM mapM]. rewrite H. destruct (g x) as [y|]; [|reflexivity]. cbn [bind]. rewrite IH. destruct (mapM g l); reflexivity.
Qed.
Lemma horizontal_order td t z ua yc th lo hi ws h : length ws = n -> measure_horizontal int_of_float td t z ua yc th lo hi ws = Ok h ->
  exists h', measure_horizontal int_of_float td t z ua yc th lo hi (pick p ws) = Ok h' /\ measure_t t h' = measure_t t h.
Proof.
  intros L. unfold measure_horizontal. set (g := fun w : list R * list (@symbol R) * list Z => sample_horizontal int_of_float (fst (fst w)) (snd (fst w)) (snd w) td t z ua yc th lo hi).
  assert (H : forall (s : @horizontal R) (w : list R * list (@symbol R) * list Z), (let '(y, symbols, dirs) := w in o <- sample_horizontal int_of_float y symbols dirs td t z ua yc th lo hi ;; Ok (hmerge s o)) = (y <- g w ;; Ok (hmerge s y))) by (intros s [[y ss] ds]; reflexivity).
  rewrite !(foldM_mapM _ g hmerge H). destruct (mapM g ws) as [hs|] eqn:M; [|discriminate]. cbn [bind]. intros E. injection E as <-. rewrite (mapM_pick g p ws hs M). cbn [bind]. eexists. split; [reflexivity|]. apply measure_t_perm. apply pick_perm.
  apply ReportProofs.mapM_Forall2 in M. apply Forall2_len in M. rewrite <- M, L. exact O.
Qed.
(** Mask. *)
Lemma mask_order mk td t z ua ws offs hs mg bad : length ws = n -> eye_sample_mask int_of_float mk td t z ua ws = Ok (offs, hs, mg, bad) ->
  exists hs', eye_sample_mask int_of_float mk td t z ua (pick p ws) = Ok (pick p offs, hs', mg, bad) /\ (mk <> None -> length offs = n).
Proof.
  intros L. unfold eye_sample_mask. destruct mk as [m|]; [|intros E; injection E as <- <- <- <-; exists []; split; [f_equal; f_equal; f_equal; f_equal; unfold pick; clear; induction p as [|[|i] q IH]; cbn [flat_map nth_error app]; [reflexivity|exact IH..]|congruence]].
  destruct (mask_convert m ua t) as [mc|]; [|discriminate]. cbn [bind]. destruct (mapM (mask_adjusted mc) margins) as [paths|]; [|discriminate]. cbn [bind].
  set (g := fun w : list R * list (@symbol R) => sample_mask int_of_float (fst w) (snd w) td t z ua paths margins).
  set (op := fun (st : list (list nat) * list (R * R) * R * nat) (o : @mask_values R) => let '(offs, hs, mg, cnt) := st in (offs ++ [offenders o], hs ++ mask_hits o, if nlt (margin o) mg then margin o else mg, (cnt + length (offenders o))%nat)).
  assert (H : forall (s : list (list nat) * list (R * R) * R * nat) w, (let '(offs, hs, mg, cnt) := s in o <- sample_mask int_of_float (fst w) (snd w) td t z ua paths margins ;; Ok (offs ++ [offenders o], hs ++ mask_hits o, if nlt (margin o) mg then margin o else mg, (cnt + length (offenders o))%nat)) = (y <- g w ;; Ok (op s y))).
  { intros [[[a b] c] d] w. fold (g w). destruct (g w); reflexivity. }
  rewrite !(foldM_mapM _ g op H). destruct (mapM g ws) as [os|] eqn:M; [|discriminate]. cbn [bind]. rewrite (mapM_pick g p ws os M). cbn [bind].
  assert (FL : forall os a b c d, fold_left op os (a, b, c, d) = (a ++ map (@offenders R) os, b ++ flat_map (@mask_hits R) os, fold_left (fun mg o => if nlt (margin o) mg then margin o else mg) os c, fold_left (fun k o => (k + length (offenders o))%nat) os d)).
  { clear. induction os as [|o os IH]; intros a b c d; cbn [fold_left map flat_map]; [rewrite !app_nil_r; reflexivity|]. unfold op at 2. rewrite IH, <- !app_assoc. reflexivity. }
  assert (LO : length os = n) by (apply ReportProofs.mapM_Forall2 in M; apply Forall2_len in M; lia). assert (PP : Permutation (pick p os) os) by (apply pick_perm; rewrite LO; exact O).
  rewrite !FL. cbn [app]. intros E. injection E as <- <- <- <-. eexists. split; [|intros _; rewrite map_length; exact LO]. rewrite pick_map.
  replace (fold_left (fun k o => (k + length (offenders o))%nat) (pick p os) 0%nat) with (fold_left (fun k (o : @mask_values R) => (k + length (offenders o))%nat) os 0%nat) by (apply fold_left_perm; [intros; lia|symmetry; exact PP]).
  match goal with |- Ok (_, _, fold_left ?f (pick p os) ?s, _) = _ => replace (fold_left f (pick p os) s) with (fold_left f os s); [reflexivity|apply fold_left_perm; [|symmetry; exact PP]] end.
  intros s x y. cbn. destruct (Rltb (margin x) s) eqn:A; destruct (Rltb (margin y) s) eqn:B; destruct (Rltb (margin y) (margin x)) eqn:C; destruct (Rltb (margin x) (margin y)) eqn:D; rewrite ?A, ?B, ?C, ?D; try reflexivity; repeat match goal with H : Rltb _ _ = true |- _ => apply Rltb_true in H | H : Rltb _ _ = false |- _ => apply Rltb_false in H end; lra.
Qed.
(** Bathtub curves. *)
Lemma curves_order td t z ua ws lv cs : length ws = n -> bathtub_curves int_of_float td t z ua ws lv = Ok cs -> bathtub_curves int_of_float td t z ua (pick p ws) lv = Ok cs.
Proof.
  intros L. unfold bathtub_curves. destruct (mapM _ ws) as [out|] eqn:M; [|discriminate]. rewrite (mapM_pick _ p _ _ M). cbn [bind]. intros E. assert (LO : length out = n) by (apply ReportProofs.mapM_Forall2 in M; apply Forall2_len in M; lia). clear M.
  apply ReportProofs.mapM_Forall2 in E. apply ReportProofs.Forall2_mapM. eapply Forall2_weaken; [|exact E]. intros i c H. cbv beta in H |- * . destruct (mapM (fun o => get o i) out) as [hs|] eqn:G; [|discriminate]. rewrite (mapM_pick _ p _ _ G). cbn [bind] in *  . injection H as <-. f_equal. apply bathtub_perm, concat_perm, pick_perm.
  apply ReportProofs.mapM_Forall2 in G. apply Forall2_len in G. rewrite <- G, LO. exact O.
Qed.

(** ** The heat map: every record adds its counts. *)
Definition added (g : grid) (c : Z -> Z -> Z) : grid := {| n_x := n_x g; n_y := n_y g; cell := fun a b => (cell g a b + c a b)%Z |}.
Definition additive (a b : Z) (F : grid -> result grid) : Prop :=
  (exists x, forall g, n_x g = a -> n_y g = b -> F g = Err x) \/ (exists c, forall g, n_x g = a -> n_y g = b -> F g = Ok (added g c)).
Lemma added_zero g : added g (fun _ _ => 0%Z) = g.
Proof. destruct g as [nx ny c]. unfold added. cbn [n_x n_y cell]. f_equal. apply functional_extensionality. intros x. apply functional_extensionality. intros y. lia. Qed.
Lemma added_twice g c c' : added (added g c) c' = added g (fun x y => (c x y + c' x y)%Z).
Proof. unfold added. cbn [n_x n_y cell]. f_equal. apply functional_extensionality. intros x. apply functional_extensionality. intros y. lia. Qed.
Lemma additive_ret a b : additive a b Ok.
Proof. right. exists (fun _ _ => 0%Z). intros g _ _. rewrite added_zero. reflexivity. Qed.
Lemma additive_err a b x : additive a b (fun _ => Err x).
Proof. left. exists x. reflexivity. Qed.
Lemma additive_bind a b F G : additive a b F -> additive a b G -> additive a b (fun g => match F g with Ok g => G g | Err x => Err x end).
Proof.
  intros [(x & A)|(c & A)] B; [left; exists x; intros g X Y; rewrite A by assumption; reflexivity|]. destruct B as [(x & B)|(c' & B)].
  - left. exists x. intros g X Y. rewrite A by assumption. apply B; assumption.
  - right. exists (fun x y => (c x y + c' x y)%Z). intros g X Y. rewrite A by assumption. rewrite B by assumption. rewrite added_twice. reflexivity.
Qed.
Lemma additive_plot a b x y : additive a b (fun g => Ok (plot g x y)).
Proof.
  right. exists (fun u v => if (((0 <=? x) && (x <? a)) && ((0 <=? y) && (y <? b)))%Z && ((u =? x) && (v =? y))%Z then 1%Z else 0%Z). intros g X Y. unfold plot. rewrite X, Y. destruct (((0 <=? x) && (x <? a)) && ((0 <=? y) && (y <? b)))%Z; cbn [andb]; f_equal.
  - unfold incr, added. f_equal. apply functional_extensionality. intros u. apply functional_extensionality. intros v. destruct ((u =? x) && (v =? y))%Z; lia.
  - symmetry. apply added_zero.
Qed.
Lemma additive_segment a b x2 y2 dx dy sx sy k : forall x1 y1 err, additive a b (segment_loop k x2 y2 dx dy sx sy x1 y1 err).
Proof.
  induction k as [|k IH]; intros x1 y1 err; cbn [segment_loop]; [apply additive_err|]. destruct ((x1 =? x2) && (y1 =? y2))%Z; [apply additive_ret|].
  destruct (if (- dy <? 2 * err)%Z then _ else _) as [e1 x1']. destruct (if (2 * err <? dx)%Z then _ else _) as [e2 y1']. apply (additive_bind a b (fun g => Ok (plot g x1 y1))); [apply additive_plot|apply IH].
Qed.
Lemma additive_draw a b k ps : additive a b (DrawModel.draw k ps).
Proof.
  unfold DrawModel.draw. destruct ps as [|q [|q' ps]]; [apply additive_err..|]. cbn [tl]. generalize (q' :: ps) as l. clear. revert q.
  assert (G : forall l q, additive a b (fun g => match draw_loop k q l g with Ok (g, (x2, y2)) => Ok (plot g x2 y2) | Err e => Err e end)); [|intros q l; apply G].
  induction l as [|r l IH]; intros q; cbn [draw_loop].
  - destruct q as [x y]. apply additive_plot.
  - pose proof (additive_bind a b (draw_segment k (fst q) (snd q) (fst r) (snd r)) _ (additive_segment a b _ _ _ _ _ _ k _ _ _) (IH r)) as B. destruct B as [(x & B)|(c & B)]; [left; exists x|right; exists c]; intros g X Y; rewrite <- (B g X Y); destruct (draw_segment k _ _ _ _ g); reflexivity.
Qed.
Lemma additive_points a b ps : additive a b (fun g => Ok (draw_points ps g)).
Proof.
  unfold draw_points. induction ps as [|q ps IH]; cbn [fold_left]; [apply additive_ret|]. pose proof (additive_bind a b (fun g => Ok (plot g (fst q) (snd q))) _ (additive_plot a b (fst q) (snd q)) IH) as B. exact B.
Qed.
Lemma additive_fold {X} a b (f : grid -> X -> result grid) l : (forall x, additive a b (fun g => f g x)) -> additive a b (fun g => foldM f g l).
Proof.
  intros H. induction l as [|x l IH]; cbn [foldM]; [apply additive_ret|]. exact (additive_bind a b (fun g => f g x) _ (H x) IH).
Qed.
Lemma additive_stack a b y ss td t lo hi res pc : additive a b (fun g => stack int_of_float cast fuel y ss td t lo hi res g pc).
Proof.
  unfold stack. destruct (get_i_width int_of_float t td) as [w|x]; [|apply additive_err]. cbn [bind]. destruct (window_axis w t td) as [t0|x]; [|apply additive_err]. cbn [bind]. cbv zeta. apply additive_fold. intros s. destruct (window_fb _ _ _ _ _) as [tt yy]. unfold stack_draw. destruct pc; [apply additive_points|apply additive_draw].
Qed.
Lemma foldM_perm {X} a b (f : grid -> X -> result grid) : (forall x, additive a b (fun g => f g x)) -> forall l l', Permutation l l' -> forall g r, n_x g = a -> n_y g = b -> foldM f g l = Ok r -> foldM f g l' = Ok r.
Proof.
  intros H l l' P. induction P as [|x l l' P IH|x y l|l1 l2 l3 P1 IH1 P2 IH2]; intros g r A B E.
  - exact E.
  - cbn [foldM] in *  . destruct (H x) as [(z & Q)|(c & Q)]; rewrite (Q g A B) in *  ; [discriminate|]. apply IH; [exact A|exact B|exact E].
  - cbn [foldM] in *  . destruct (H y) as [(z & Q)|(c & Q)]; rewrite (Q g A B) in E; [discriminate|]. destruct (H x) as [(z & Q')|(c' & Q')]; rewrite (Q' (added g c) A B) in E; [discriminate|]. rewrite (Q' g A B), (Q (added g c') A B). rewrite added_twice in *  .
    replace (fun x0 y0 => (c' x0 y0 + c x0 y0)%Z) with (fun x0 y0 => (c x0 y0 + c' x0 y0)%Z); [exact E|]. apply functional_extensionality. intros u. apply functional_extensionality. intros v. lia.
  - apply IH2; [exact A|exact B|]. apply IH1; [exact A|exact B|exact E].
Qed.
Lemma heatmap_order td t z ua ws res pc k h : length ws = n -> step5_heatmap int_of_float cast fuel td t z ua ws res pc k = Ok h -> step5_heatmap int_of_float cast fuel td t z ua (pick p ws) res pc k = Ok h.
Proof.
  intros L. unfold step5_heatmap. cbv zeta. set (g0 := {| n_x := res; n_y := res; cell := fun _ _ => 0%Z |}). destruct (foldM _ g0 ws) as [g|] eqn:F; [|discriminate]. intros E. rewrite (foldM_perm res res _ (fun w => additive_stack res res _ _ _ _ _ _ _ _) ws (pick p ws)) with (r := g); [exact E|apply Permutation_sym, pick_perm; rewrite L; exact O|reflexivity|reflexivity|exact F].
Qed.
(** ** Images *)
Lemma offenders_ok res td t z ua ws offs im : length offs = length ws ->
  (exists r, draw_offenders draw cast res td t z ua ws offs im = Ok r)
  <-> (exists l, mapM (fun q => draw_symbols draw cast (fst (fst q)) (snd (fst q)) td t (- (1 / 2) * ua + z) (3 / 2 * ua + z) res (firstn 2 (snd q))) (combine ws offs) = Ok l).
Proof.
  intros L. unfold draw_offenders. cbv zeta. set (G := fun q : list R * list (R * Z) * list nat => draw_symbols _ _ _ _ _ _ _ _ _ _). match goal with |- (exists r, foldM ?F im _ = Ok r) <-> _ => set (f := F) end.
  assert (H : forall ws k im, (length ws + k)%nat = length offs -> (exists r, foldM f im (combine (seq k (length ws)) ws) = Ok r) <-> (exists l, mapM G (combine ws (skipn k offs)) = Ok l)).
  { clear ws L im. induction ws as [|w ws IH]; intros k im L; [split; intros _; eexists; reflexivity|]. cbn [length seq combine foldM].
    destruct (nth_error offs k) as [o|] eqn:B; [|apply nth_error_None in B; cbn [length] in L; lia].
    assert (SK : skipn k offs = o :: skipn (S k) offs). { clear -B. revert k B. induction offs as [|z b IH]; intros [|k] B; try discriminate; [injection B as ->; reflexivity|]. cbn [nth_error] in B. cbn [skipn]. rewrite (IH k B). reflexivity. }
    rewrite SK. cbn [combine mapM]. unfold f at 1. unfold get. rewrite B. cbn [bind]. change (draw_symbols draw cast (fst w) (snd w) td t (- (1 / 2) * ua + z) (3 / 2 * ua + z) res (firstn 2 o)) with (G (w, o)). destruct (G (w, o)) as [ab|x]; cbn [bind]; [|split; intros (r & R); discriminate].
    match goal with |- (exists r, foldM f ?i _ = Ok r) <-> _ => specialize (IH (S k) i) end. rewrite IH by (cbn [length] in L; lia). split; intros (r & R); [rewrite R; eexists; reflexivity|]. destruct (mapM G _) as [l|]; [exists l; reflexivity|discriminate]. }
  specialize (H ws 0%nat im). rewrite H by lia. reflexivity.
Qed.
Lemma hits_ok res hs : exists im, draw_hits draw res hs = Ok im.
Proof.
  unfold draw_hits. assert (G : exists st, foldM (draw_hit draw res) (fun _ _ => false, fun _ _ => [1; 0; 0; 0]) hs = Ok st).
  { generalize ((fun _ _ => false, fun _ _ => [1; 0; 0; 0]) : (Z -> Z -> bool) * image). induction hs as [|h hs IH]; intros st; [eexists; reflexivity|]. cbn [foldM]. unfold draw_hit at 1. destruct st as [dr im]. unfold uia_to_image, int_of_float. cbn [bind]. destruct (_ && _); apply IH. }
  destruct G as (st & ->). eexists. reflexivity.
Qed.
Lemma images_order res h lo hi mc mg hs offs hs' offs' td t z ua ws im : length ws = n -> (mc <> None -> length offs = n /\ offs' = pick p offs) ->
  draw_images draw cast res h lo hi mc mg hs offs td t z ua ws = Ok im ->
  exists im', draw_images draw cast res h lo hi mc mg hs' offs' td t z ua (pick p ws) = Ok im' /\ same_images im im'.
Proof.
  intros L M. unfold draw_images. destruct (clean_image _ _ _) as [cl|]; [|discriminate]. cbn [bind]. destruct (draw_grid _ _ _) as [gr|]; [|discriminate]. cbn [bind]. destruct mc as [mc|]; [|cbn [bind]; intros E; exists im; split; [exact E|repeat split]].
  destruct (M ltac:(discriminate)) as (LO & ->). destruct (mask_paths mc) as [ps|]; [|discriminate]. cbn [bind]. destruct (draw_paths draw res ps) as [im1|]; [|discriminate]. cbn [bind]. destruct mg as [mg|]; [|discriminate]. cbn [bind]. destruct (mask_adjusted mc mg) as [ps'|]; [|discriminate]. cbn [bind]. destruct (draw_paths draw res ps') as [im2|]; [|discriminate]. cbn [bind].
  destruct (hits_ok res hs) as (ih & ->). destruct (hits_ok res hs') as (ih' & ->). cbn [bind]. destruct (draw_offenders _ _ _ _ _ _ _ ws offs ih) as [io|] eqn:DO; [|discriminate]. cbn [bind]. intros E. injection E as <-.
  assert (Q : exists r, draw_offenders draw cast res td t z ua (pick p ws) (pick p offs) ih' = Ok r).
  { apply offenders_ok; [rewrite !pick_length; congruence|]. rewrite <- pick_combine by congruence. destruct (proj1 (offenders_ok res td t z ua ws offs ih ltac:(congruence)) (ex_intro _ io DO)) as (l & Q). exists (pick p l). apply mapM_pick. exact Q. }
  destruct Q as (io' & ->). cbn [bind]. eexists. split; [reflexivity|]. repeat split.
Qed.

(** ** All results *)
Notation results := (results percentile cast fuel draw).
Notation measured := (measured percentile).
Notation pictures := (pictures cast draw).
Local Ltac use H := match goal with |- _ -> bind ?X _ = _ => match type of H with _ = ?Y => replace X with Y by (symmetry; exact H) end end.
Local Ltac use2 H := match goal with |- context [exists _ _, bind ?X _ = _ /\ _] => match type of H with _ = ?Y => replace X with Y by (symmetry; exact H) end end.
Lemma measured_order w w' mk td c l t ct m dirs z ua : dim w 0 = n -> waves w' = pick p (waves w) -> length ct = n -> measured w mk td c l t ct = Ok (m, dirs, z, ua) ->
  measured w' mk td c l t (pick p ct) = Ok (m, option_map (pick p) dirs, z, ua).
Proof.
  intros D W LC. unfold measured. rewrite W. rewrite <- pick_map. unfold count_samples. rewrite (count_order ct LC). destruct (c_skip_measures c); [intros E; injection E as <- <- <- <-; reflexivity|].
  assert (LY : length (map snd (waves w)) = n) by (rewrite map_length, waves_length; exact D). rewrite <- pick_combine by congruence. set (ws := combine (map snd (waves w)) ct). assert (LW : length ws = n) by (unfold ws; rewrite combine_length; lia).
  destruct (collect _ ws) as [vs failed] eqn:C. destruct failed as [x|]; [discriminate|]. apply collect_ok in C. assert (LV : length vs = n) by (apply ReportProofs.mapM_Forall2 in C; apply Forall2_len in C; lia). apply (mapM_pick _ p) in C. apply collect_ok in C. rewrite C. cbn [outcome bind].
  assert (PP : Permutation (pick p vs) vs) by (apply pick_perm; rewrite LV; exact O). destruct (measure_y_perm (c_noise_floor c) _ _ PP) as (MY & TR). rewrite MY, TR. clear C MY TR.
  destruct (some_value (m_y_0 _)) as [m0|]; [|discriminate]. cbn [bind]. destruct (some_value (m_amp _)) as [amp|]; [|discriminate]. cbn [bind]. destruct (update_levels _ _ _ _ _ _ _) as [[z' ua'] hf]. destruct (some_value (m_y_cross _)) as [yc|]; [|discriminate]. cbn [bind].
  rewrite <- pick_map. rewrite <- (pick_combine p ws) by (rewrite map_length; congruence). destruct (measure_horizontal _ _ _ _ _ _ _ _ _ (combine ws _)) as [h|] eqn:MH; [|discriminate]. cbn [bind]. assert (LH : length (combine ws (map (fun v => v_edge_dir v) vs)) = n) by (rewrite combine_length, map_length; lia). destruct (horizontal_order td t z' ua' yc _ _ _ _ h LH MH) as (h' & MH' & MT). use MH'. cbn [bind].
  destruct (eye_sample_mask _ mk td t z' ua' ws) as [[[[offs hs] mg] bad]|] eqn:EM; [|discriminate]. cbn [bind]. destruct (mask_order mk td t z' ua' ws offs hs mg bad LW EM) as (hs' & EM' & _). use EM'. cbn [bind].
  destruct (bathtub_curves _ td t z' ua' ws _) as [cs|] eqn:BC; [|discriminate]. cbn [bind]. use (curves_order td t z' ua' ws _ cs LW BC). cbn [bind]. intros E. injection E as <- <- <- <-. rewrite MT. cbn [option_map]. rewrite pick_map. reflexivity.
Qed.
Lemma results_order w w' mk res td c l edges t offs0 hs0 m h dirs im pr : dim w 0 = n -> waves w' = pick p (waves w) -> length edges = n ->
  results w mk res td c l edges t (None, offs0, hs0) = Ok (m, h, dirs, im, pr) ->
  exists im' pr', results w' mk res td c l (pick p edges) t (None, offs0, hs0) = Ok (m, h, option_map (pick p) dirs, im', pr') /\ same_images im im'.
Proof.
  intros D W LE. unfold results. destruct (Reqb td 0); [discriminate|]. destruct (sample_all t td edges (waves w)) as [ct|] eqn:SA; [|discriminate]. cbn [bind]. rewrite W. destruct (sample_all_order t td edges (waves w) ct LE ltac:(rewrite waves_length; exact D) SA) as (SA' & LC). rewrite SA'. cbn [bind].
  destruct (measured w mk td c l t ct) as [[[[m1 dirs1] z] ua]|] eqn:ME; [|discriminate]. cbn [bind]. rewrite (measured_order w w' mk td c l t ct m1 dirs1 z ua D W LC ME). cbn [bind]. rewrite <- pick_map.
  assert (LY : length (map snd (waves w)) = n) by (rewrite map_length, waves_length; exact D). rewrite <- pick_combine by congruence. set (ws := combine (map snd (waves w)) ct). assert (LW : length ws = n) by (unfold ws; rewrite combine_length; lia).
  destruct (step5_heatmap _ _ _ _ _ _ _ ws _ _ _) as [h1|] eqn:HM; [|discriminate]. cbn [bind]. use2 (heatmap_order td t z ua ws _ _ _ h1 LW HM). cbn [bind].
  destruct (mask_found w mk td c t z ua ct (None, offs0, hs0)) as [[[mc offs] hs]|] eqn:MF; [|discriminate]. cbn [bind].
  assert (MF' : exists offs' hs', mask_found w' mk td c t z ua (pick p ct) (None, offs0, hs0) = Ok (mc, offs', hs') /\ (mc <> None -> length offs = n /\ offs' = pick p offs)).
  { unfold mask_found in *  . destruct mk as [mk|]; [|injection MF as <- <- <-; exists offs0, hs0; split; [reflexivity|congruence]]. destruct (c_skip_measures c); [injection MF as <- <- <-; exists offs0, hs0; split; [reflexivity|congruence]|].
    destruct (mask_convert mk ua t) as [mc'|]; [|discriminate]. cbn [bind] in *  . rewrite W, <- pick_map, <- pick_combine by congruence. fold ws in MF |- * . destruct (eye_sample_mask _ _ td t z ua ws) as [[[[of1 hs1] mg1] bad1]|] eqn:EM; [|discriminate]. cbn [bind] in MF. injection MF as <- <- <-. destruct (mask_order (Some mk) td t z ua ws of1 hs1 mg1 bad1 LW EM) as (hs' & EM' & LO). use2 EM'. cbn [bind]. exists (pick p of1), hs'. split; [reflexivity|]. intros _. split; [apply LO; discriminate|reflexivity]. }
  destruct MF' as (offs' & hs' & -> & MC). cbn [bind]. unfold pictures. rewrite W, <- pick_map, <- pick_combine by congruence. fold ws. destruct (draw_images _ _ _ _ _ _ mc _ hs offs _ _ _ _ ws) as [im1|] eqn:DI; [|discriminate]. cbn [bind]. intros E. injection E as <- <- <- <- _.
  destruct (images_order _ _ _ _ mc _ hs offs hs' offs' _ _ _ _ ws im1 LW MC DI) as (im' & -> & SI). cbn [bind]. eexists. eexists. split; [reflexivity|exact SI].
Qed.
End Results.
