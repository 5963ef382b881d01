(** The search for the clock period. *)
From Coq Require Import ZArith Reals Bool List Lia Lra Permutation Sorted.
Import ListNotations.
From Verif Require Import Base Num RBool StatsModel CdrModel CdrSpec CdrProofs.
Local Open Scope R_scope.

Lemma jumps_cons t a b l : jumps t (a :: b :: l) = ((if Rlt_dec (t / 2) (Rabs (b - a)) then 1 else 0) + jumps t (b :: l))%nat.
Proof. reflexivity. Qed.
Lemma jumps_count t (l : list R) : length (filter (fun d => nlt (ndiv t (nofZ 2)) (nabs d)) (diff l)) = jumps t l.
Proof.
  induction l as [|a l IH]; [reflexivity|]. destruct l as [|b l]; [reflexivity|]. change (diff (a :: b :: l)) with (nsub b a :: diff (b :: l)). cbn [filter]. rewrite jumps_cons, nabs_R.
  change (nlt (ndiv t (nofZ 2)) (Rabs (nsub b a))) with (Rltb (t / 2) (Rabs (b - a))). unfold Rltb.
  destruct (Rlt_dec (t / 2) (Rabs (b - a))); cbn [length]; rewrite IH; reflexivity.
Qed.
Lemma jumps_shift t c (l : list R) : jumps t (map (fun x => x + c) l) = jumps t l.
Proof.
  induction l as [|a l IH]; [reflexivity|]. destruct l as [|b l]; [reflexivity|]. cbn [map]. cbn [map] in IH. rewrite jumps_cons, IH, jumps_cons.
  replace (b + c - (a + c)) with (b - a) by ring. reflexivity.
Qed.
Lemma tv_tie e0 t e : 0 < t -> tie t (e - e0) (tv e0 t e).
Proof. intros T. exists (nb e0 t e). split; [symmetry; apply tv_pos|apply tv_range; exact T]. Qed.
Lemma tie_unique t x y y' : 0 < t -> tie t x y -> tie t x y' -> y = y'.
Proof.
  intros T (k & E & R1) (k' & E' & R2).
  assert (D : Rabs (IZR (k - k')) < 1).
  { apply Rmult_lt_reg_r with t; [exact T|]. rewrite <- (Rabs_right t) at 1 by lra. rewrite <- Rabs_mult, minus_IZR.
    apply Rabs_def1; lra. }
  apply Rabs_def2 in D. destruct D as [U L]. apply lt_IZR in U. apply (lt_IZR (-1)) in L. assert (k = k') by lia. subst k'. lra.
Qed.
Lemma disjoints_tv t e0 l : 0 < t -> disjoints t (e0 :: l) (jumps t (map (tv e0 t) (e0 :: l))).
Proof.
  intros T. exists (map (tv e0 t) (e0 :: l)). split; [|reflexivity]. cbn [hd].
  generalize (e0 :: l). intros q. induction q; cbn [map]; constructor; [apply tv_tie; exact T|assumption].
Qed.
Lemma disjoints_unique t edges n m : 0 < t -> disjoints t edges n -> disjoints t edges m -> n = m.
Proof.
  intros T (l & F & <-) (l' & F' & <-). f_equal.
  revert F l' F'. generalize (map (fun e => e - hd 0 edges) edges) as q. intros q. revert l.
  induction q as [|x q IH]; intros l F l' F'; inversion F; subst; inversion F'; subst; [reflexivity|].
  f_equal; [apply tie_unique with t x; assumption|]. apply IH; assumption.
Qed.
Lemma walk_quiet e0 t l : 0 < t -> forall prev, jumps t (prev :: map (tv e0 t) l) = 0%nat -> walk e0 t prev 0 l = map (fun e => (nb e0 t e, tv e0 t e)) l.
Proof.
  intros T. induction l as [|e l IH]; intros prev J; [reflexivity|]. cbn [map] in J. rewrite jumps_cons in J. cbn [walk map].
  destruct (Rlt_dec (t / 2) (Rabs (tv e0 t e - prev))) as [Q|Q]; [discriminate J|].
  assert (S : sg t (tv e0 t e - prev) = 0%Z).
  { unfold sg. apply Rnot_lt_le in Q. rewrite (proj2 (Rltb_false _ _)); [|pose proof (Rle_abs (tv e0 t e - prev)); lra].
    rewrite (proj2 (Rltb_false _ _)); [reflexivity|]. pose proof (Rle_abs (- (tv e0 t e - prev))) as A. rewrite Rabs_Ropp in A. lra. }
  rewrite S. cbn [Z.add]. rewrite IH by exact J. f_equal. f_equal; [lia|ring].
Qed.
Lemma slope_shift (x y : list R) c : length x = length y -> y <> [] -> slope x (map (fun v => v + c) y) = slope x y.
Proof.
  intros L NE. unfold slope. cbv zeta.
  assert (M : mean (map (fun v => v + c) y) = mean y + c).
  { rewrite !mean_eq, map_length. assert (N : 0 < INR (length y)) by (destruct y; [congruence|]; apply lt_0_INR; cbn; lia).
    change (total (map (fun v => v + c) y)) with (sum (fun v => v + c) y). rewrite sum_add, sum_const.
    replace (sum (fun x => x) y) with (total y) by (unfold sum; rewrite map_id; reflexivity). field. lra. }
  rewrite M.
  assert (C : map (fun p : R * R => nmul (nsub (fst p) (mean x)) (nsub (snd p) (mean y + c))) (combine x (map (fun v => v + c) y))
            = map (fun p : R * R => nmul (nsub (fst p) (mean x)) (nsub (snd p) (mean y))) (combine x y)).
  { generalize (mean x) as mx. generalize (mean y) as my. intros my mx. clear. revert y. induction x as [|a x IH]; intros [|b y]; cbn [combine map]; try reflexivity. rewrite IH. f_equal. cbn. ring. }
  rewrite C. reflexivity.
Qed.

(** The score of a period. *)
Lemma score_eq e0 l t : 0 < t ->
  tie_score Int_part (map (fun e => e - e0) (e0 :: l)) t
  = match jumps t (map (tv e0 t) (e0 :: l)) with
    | O => bind (detrend Int_part false (e0 :: l) t) (fun p => Ok (Rabs (p - t) - 1))
    | S k => Ok (IZR (Z.of_nat (S k)))
    end.
Proof.
  intros T. unfold tie_score. cbv zeta.
  assert (MT : mapM (fun e => fmod Int_part (nadd e (ndiv t (nofZ 2))) t) (map (fun e => e - e0) (e0 :: l)) = Ok (map (fun v => v + t / 2) (map (tv e0 t) (e0 :: l)))).
  { rewrite (mapM_all _ (fun x => x + t / 2 - IZR (Int_part ((x + t / 2) / t)) * t)) by (intros x _; apply fmod_R; lra).
    rewrite !map_map. f_equal. apply map_ext. intros e. unfold tv, nb. ring. }
  rewrite MT. cbn [bind]. rewrite jumps_count, jumps_shift.
  destruct (jumps t (map (tv e0 t) (e0 :: l))) eqn:J; [|reflexivity].
  assert (MB : mapM (fun e => floor_div Int_part (nadd e (ndiv t (nofZ 2))) t) (map (fun e => e - e0) (e0 :: l)) = Ok (map (nb e0 t) (e0 :: l))).
  { rewrite (mapM_all _ (fun x => Int_part ((x + t / 2) / t))) by (intros x _; apply floor_div_R; lra). rewrite map_map. reflexivity. }
  rewrite MB. cbn [bind]. rewrite slope_shift; [|rewrite !map_length; reflexivity|discriminate].
  pose proof (detrend_slope false e0 l t T) as D. cbv zeta in D. rewrite D.
  cbn [map] in J. rewrite (tv_first e0 t T) in J. rewrite (walk_quiet e0 t l T 0 J).
  assert (E1 : map fst (points ((0%Z, 0) :: map (fun e => (nb e0 t e, tv e0 t e)) l)) = map nofZ (map (nb e0 t) (e0 :: l))).
  { unfold points. cbn [map fst]. rewrite (nb_first e0 t T), !map_map. reflexivity. }
  assert (E2 : map snd (points ((0%Z, 0) :: map (fun e => (nb e0 t e, tv e0 t e)) l)) = map (tv e0 t) (e0 :: l)).
  { unfold points. cbn [map snd]. rewrite (tv_first e0 t T), !map_map. reflexivity. }
  rewrite E1, E2. destruct (slope (map nofZ (map (nb e0 t) (e0 :: l))) (map (tv e0 t) (e0 :: l))) as [s|e]; [|reflexivity].
  cbn [bind]. f_equal. rewrite nabs_R. cbn [nsub nofZ NumR]. replace (t + s - t) with s by ring. ring.
Qed.
(** Scores below the tolerance mean few disjoints. *)
Lemma score_disjoints e0 l t s tol : 0 < t -> 0 < tol -> tie_score Int_part (map (fun e => e - e0) (e0 :: l)) t = Ok s -> s < tol ->
  exists n, disjoints t (e0 :: l) n /\ INR n < tol.
Proof.
  intros T TP E ST. rewrite score_eq in E by exact T. pose proof (disjoints_tv t e0 l T) as D.
  destruct (jumps t (map (tv e0 t) (e0 :: l))) eqn:J.
  - exists 0%nat. split; [exact D|exact TP].
  - exists (S n). split; [exact D|]. rewrite INR_IZR_INZ. apply (f_equal (fun r => match r with Ok v => v | _ => 0 end)) in E. rewrite E. exact ST.
Qed.
(** A score exists when the second edge is not in the first symbol. *)
Lemma score_exists e0 e1 l t : 0 < t -> t / 2 < e1 - e0 -> exists s, tie_score Int_part (map (fun e => e - e0) (e0 :: e1 :: l)) t = Ok s.
Proof.
  intros T H. rewrite score_eq by exact T. destruct (jumps t (map (tv e0 t) (e0 :: e1 :: l))); [|eexists; reflexivity].
  destruct (detrend_general false (e0 :: e1 :: l) t T ltac:(discriminate)) as (ns & N & HD & G & _).
  destruct ns as [|n0 [|n1 ns]]; try destruct N as []. cbn [hd] in HD. subst n0.
  assert (DI : differ (0%Z :: n1 :: ns)); [|destruct (G DI) as (p & E & _); rewrite E; eexists; reflexivity].
  exists n1, 0%Z. split; [right; left; reflexivity|]. split; [left; reflexivity|]. intros ->.
  change (IZR (0 - 0)) with 0 in H0. pose proof (Rle_abs (e1 - e0 - 0 * t)). lra.
Qed.
Lemma score_errors e0 l t e : 0 < t -> tie_score Int_part (map (fun e => e - e0) (e0 :: l)) t = Err e -> e = UndefinedBehaviour.
Proof.
  intros T H. rewrite score_eq in H by exact T. destruct (jumps t (map (tv e0 t) (e0 :: l))); [|discriminate].
  destruct (detrend_general false (e0 :: l) t T ltac:(discriminate)) as (ns & N & HD & G & G').
  assert (DD : differ ns \/ ~ differ ns) by apply Classical_Prop.classic.
  destruct DD as [DD|DD]; [destruct (G DD) as (p & E & _)|rewrite (G' DD) in H; cbn in H; congruence].
  rewrite E in H. discriminate.
Qed.

(** *** Grids *)
Lemma span_c_in a b n x : a <= b -> (2 <= n)%Z -> In x (span_c a b n) -> a <= x <= b.
Proof.
  intros AB N I. unfold span_c in I. apply in_map_iff in I. destruct I as (i & <- & I). apply in_seq in I.
  cbn [nadd nmul ndiv nsub nofZ NumR].
  assert (P : 0 < IZR (n - 1)) by (apply (IZR_lt 0); lia).
  assert (U : IZR (Z.of_nat i) <= IZR (n - 1)) by (apply IZR_le; lia). assert (L : 0 <= IZR (Z.of_nat i)) by (apply (IZR_le 0); lia).
  assert (Q : 0 <= (b - a) / IZR (n - 1)) by (apply Rmult_le_pos; [lra|]; left; apply Rinv_0_lt_compat; exact P).
  assert (M : IZR (n - 1) * ((b - a) / IZR (n - 1)) = b - a) by (field; lra).
  pose proof (Rmult_le_compat_r _ _ _ Q U). pose proof (Rmult_le_pos _ _ L Q). lra.
Qed.
Lemma linspace_grid (a b : R) n : (2 <= n)%Z ->
  linspace a b (Z.to_nat n) = map (fun i => a + IZR (Z.of_nat i) * ((b - a) / IZR (n - 1))) (seq 0 (Z.to_nat n)).
Proof.
  intros N. assert (exists k, Z.to_nat n = S (S k)) as (k & E) by (exists (Z.to_nat (n - 2)); lia). rewrite E. unfold linspace.
  replace (n - 1)%Z with (Z.of_nat (S k)) by lia.
  assert (P : 0 < IZR (Z.of_nat (S k))) by (apply (IZR_lt 0); lia).
  rewrite (seq_S (S k) 0). rewrite map_app. f_equal.
  - apply map_ext. intros i. cbn [nadd nmul ndiv nsub nofZ NumR]. lra.
  - cbn [map Nat.add]. f_equal. field. lra.
Qed.
Lemma span_eq compiled (a b : R) n : (2 <= n)%Z -> span compiled a b n = span_c a b n.
Proof. intros N. destruct compiled; [reflexivity|]. exact (linspace_grid a b n N). Qed.
Lemma span_in compiled a b n x : a <= b -> (2 <= n)%Z -> In x (span compiled a b n) -> a <= x <= b.
Proof. intros AB N I. rewrite span_eq in I by exact N. exact (span_c_in a b n x AB N I). Qed.

(** *** The search *)
Section Search.
Variable sort : list (R * R) -> list (R * R).
Hypothesis SO : sorts sort.
Variable n_comp : Z.
Hypothesis NC : (200000 <= n_comp)%Z.

Lemma mapM_spec {X Y} (f : X -> result Y) l : forall ys, mapM f l = Ok ys -> Forall2 (fun x y => f x = Ok y) l ys.
Proof.
  induction l as [|x l IH]; intros ys E; cbn in E; [injection E as <-; constructor|].
  destruct (f x) eqn:F; [|discriminate]. destruct (mapM f l) eqn:M; [|discriminate]. injection E as <-. constructor; [exact F|]. apply IH. reflexivity.
Qed.
Lemma mapM_err {X Y} (f : X -> result Y) l e : mapM f l = Err e -> exists x, In x l /\ f x = Err e.
Proof.
  induction l as [|x l IH]; intros E; cbn in E; [discriminate|].
  destruct (f x) eqn:F; [|injection E as <-; exists x; split; [left; reflexivity|exact F]].
  destruct (mapM f l) eqn:M; [discriminate|]. injection E as ->. destruct (IH eq_refl) as (y & I & F'). exists y. split; [right; exact I|exact F'].
Qed.
Lemma Forall2_in_r {X Y} (P : X -> Y -> Prop) l l' y : Forall2 P l l' -> In y l' -> exists x, In x l /\ P x y.
Proof. induction 1 as [|a b l l' H F IH]; intros I; [destruct I|]. destruct I as [<-|I]; [exists a; split; [left; reflexivity|exact H]|]. destruct (IH I) as (x & I' & Q). exists x. split; [right; exact I'|exact Q]. Qed.
Lemma Forall2_in_l {X Y} (P : X -> Y -> Prop) l l' x : Forall2 P l l' -> In x l -> exists y, In y l' /\ P x y.
Proof. induction 1 as [|a b l l' H F IH]; intros I; [destruct I|]. destruct I as [<-|I]; [exists b; split; [left; reflexivity|exact H]|]. destruct (IH I) as (y & I' & Q). exists y. split; [right; exact I'|exact Q]. Qed.

Definition ts := tie_scores Int_part sort.
Lemma ts_in edges sp r x : ts edges sp = Ok r -> In x r -> In (fst x) sp /\ tie_score Int_part edges (fst x) = Ok (snd x).
Proof.
  intros E I. unfold ts, tie_scores in E.
  destruct (mapM (fun t => bind (tie_score Int_part edges t) (fun s => Ok (t, s))) sp) as [q|] eqn:M; [|discriminate].
  cbn [bind] in E. injection E as <-. pose proof (mapM_spec _ _ _ M) as F.
  apply (Permutation_in _ (Permutation_sym (proj1 (SO q)))) in I. destruct (Forall2_in_r _ _ _ _ F I) as (t & It & Et).
  destruct (tie_score Int_part edges t) eqn:TS; [|discriminate]. injection Et as <-. cbn. split; [exact It|exact TS].
Qed.
Lemma ts_best edges sp r t s : ts edges sp = Ok r -> In t sp -> tie_score Int_part edges t = Ok s -> exists b r', r = b :: r' /\ snd b <= s.
Proof.
  intros E I TS. unfold ts, tie_scores in E.
  destruct (mapM (fun t => bind (tie_score Int_part edges t) (fun s => Ok (t, s))) sp) as [q|] eqn:M; [|discriminate].
  cbn [bind] in E. injection E as <-. pose proof (mapM_spec _ _ _ M) as F. destruct (SO q) as (PE & SS).
  destruct (Forall2_in_l _ _ _ _ F I) as (y & Iy & Ey). rewrite TS in Ey. injection Ey as <-.
  apply (Permutation_in _ PE) in Iy. destruct (sort q) as [|b r']; [destruct Iy|]. exists b, r'. split; [reflexivity|].
  destruct Iy as [->|Iy]; [cbn; lra|]. inversion SS; subst. rewrite Forall_forall in H2. exact (H2 _ Iy).
Qed.
Lemma ts_err edges sp e : ts edges sp = Err e -> exists t, In t sp /\ tie_score Int_part edges t = Err e.
Proof.
  intros E. unfold ts, tie_scores in E.
  destruct (mapM (fun t => bind (tie_score Int_part edges t) (fun s => Ok (t, s))) sp) as [q|e'] eqn:M; [discriminate|].
  cbn [bind] in E. injection E as ->. destruct (mapM_err _ _ _ M) as (t & I & B). exists t. split; [exact I|].
  destruct (tie_score Int_part edges t); [discriminate|]. cbn in B. congruence.
Qed.
Lemma ts_ok edges sp : (forall t, In t sp -> exists s, tie_score Int_part edges t = Ok s) -> exists r, ts edges sp = Ok r.
Proof.
  intros H. destruct (ts edges sp) as [r|e] eqn:E; [exists r; reflexivity|]. destruct (ts_err _ _ _ E) as (t & I & B). destruct (H t I) as (s & S). congruence.
Qed.

Definition minim := minimize Int_part sort n_comp.
Lemma finer_spec compiled edges a b ns n lower : a <= b -> Forall (fun p => (2 <= snd p)%Z) ns ->
  finer Int_part sort compiled edges a b ns = Ok (n, lower) -> (lower = [] \/ In n (map fst ns)) /\ forall x, In x lower -> a <= x <= b.
Proof.
  intros AB. induction ns as [|[m pts] ns IH]; intros F E; [injection E as <- <-; split; [left; reflexivity|intros x []]|].
  inversion F; subst. cbn [finer] in E. fold ts in E. destruct (ts (firstn (Z.to_nat m) edges) (span compiled a b pts)) as [r|e] eqn:TS; [|discriminate]. cbn [bind] in E.
  destruct (map fst (filter (fun s => nlt (snd s) (nofZ 1)) r)) as [|y ys] eqn:L.
  - destruct (IH H2 E) as (I1 & I2). split; [|exact I2]. destruct I1 as [I1|I1]; [left; exact I1|right; right; exact I1].
  - injection E as <- <-. split; [right; left; reflexivity|]. intros x I. rewrite <- L in I. apply in_map_iff in I. destruct I as (s & <- & I).
    apply filter_In in I. destruct I as (I & _). exact (span_in compiled a b pts _ AB H1 (proj1 (ts_in _ _ _ _ TS I))).
Qed.
Lemma rounds_ok compiled : Forall (fun p => (2 <= snd p)%Z) (rounds n_comp compiled) /\ (forall n, In n (map fst (rounds n_comp compiled)) -> (2 <= n_comp / n)%Z).
Proof.
  assert (Q : forall n, In n [100000; 10000; 1000; 100]%Z -> (2 <= n_comp / n)%Z).
  { intros n I. apply Z.div_le_lower_bound; cbn in I; lia. }
  unfold rounds. destruct compiled; cbn [map fst].
  - split; [|exact Q]. repeat constructor; cbn [snd]; try (apply Q; cbn; tauto). lia.
  - split; [|exact Q]. repeat constructor; cbn [snd]; lia.
Qed.
Lemma step_of_ok compiled a b n : a <= b -> (2 <= n_comp / n)%Z -> exists s, step_of n_comp compiled a b n = Ok s /\ 0 <= s.
Proof.
  intros AB N. unfold step_of. destruct compiled.
  - assert (P : 0 < IZR (n_comp / n - 1)) by (apply (IZR_lt 0); lia).
    exists ((b - a) / IZR (n_comp / n - 1)). split.
    + unfold np_div. cbn [neq nofZ nsub ndiv NumR]. rewrite (proj2 (Reqb_false _ 0)) by lra. reflexivity.
    + apply Rmult_le_pos; [lra|]. left. apply Rinv_0_lt_compat. exact P.
  - cbv zeta. rewrite linspace_grid by lia. assert (exists k, Z.to_nat (Z.max 20 (n_comp / n)) = S (S k)) as (k & ->) by (exists (Z.to_nat (Z.max 20 (n_comp / n) - 2)); lia).
    cbn [seq map]. unfold get. cbn [nth_error bind]. eexists. split; [reflexivity|]. cbn [nsub NumR].
    change (IZR (Z.of_nat 0)) with 0. change (IZR (Z.of_nat 1)) with 1.
    assert (P : 0 < IZR (Z.max 20 (n_comp / n) - 1)) by (apply (IZR_lt 0); lia).
    assert (0 <= (b - a) / IZR (Z.max 20 (n_comp / n) - 1)) by (apply Rmult_le_pos; [lra|]; left; apply Rinv_0_lt_compat; exact P). lra.
Qed.
Lemma py_max2 a b : exists m, py_max [a; b] = Ok m /\ a <= m /\ b <= m /\ (m = a \/ m = b).
Proof. destruct (py_max_R [a; b] ltac:(discriminate)) as (m & E & I & B). exists m. split; [exact E|]. split; [apply B; left; reflexivity|]. split; [apply B; right; left; reflexivity|]. cbn in I. intuition congruence. Qed.
Lemma py_min2 a b : exists m, py_min [a; b] = Ok m /\ m <= a /\ m <= b /\ (m = a \/ m = b).
Proof. destruct (py_min_R [a; b] ltac:(discriminate)) as (m & E & I & B). exists m. split; [exact E|]. split; [apply B; left; reflexivity|]. split; [apply B; right; left; reflexivity|]. cbn in I. intuition congruence. Qed.

(** One round, either done or continued on a smaller range. *)
Lemma round_cases compiled k e0 l a b tol : 0 < a -> a <= b ->
  (exists p s, minim compiled k (e0 :: l) a b tol = Ok p /\ a <= p <= b /\ tie_score Int_part (map (fun e => e - e0) (e0 :: l)) p = Ok s /\ s < tol)
  \/ minim compiled k (e0 :: l) a b tol = Err ArithmeticError
  \/ (exists n t, (2 <= n)%nat /\ a <= t <= b /\ (exists e, minim compiled k (e0 :: l) a b tol = Err e /\ tie_score Int_part (firstn n (map (fun e => e - e0) (e0 :: l))) t = Err e))
  \/ (exists k' a' b', k = S k' /\ a <= a' /\ a' <= b' /\ b' <= b /\ minim compiled k (e0 :: l) a b tol = minim compiled k' (e0 :: l) a' b' tol).
Proof.
  intros A AB. 
  set (edges := map (fun e => e - e0) (e0 :: l)).
  set (pts := Z.max 20 (n_comp / Z.of_nat (length edges))).
  assert (U : minim compiled k (e0 :: l) a b tol = bind (ts edges (span compiled a b pts)) (fun scores => bind (get scores 0) (fun best =>
     if nlt (snd best) tol then Ok (fst best) else
     match k with
     | O => Err ArithmeticError
     | S k' => bind (finer Int_part sort compiled edges a b (rounds n_comp compiled)) (fun r => let '(n, lower) := r in
        match lower with
        | [] => Err ArithmeticError
        | _ => bind (step_of n_comp compiled a b n) (fun t_step => bind (py_min lower) (fun lo => bind (py_max lower) (fun hi =>
            bind (py_max [a; nsub lo t_step]) (fun lo => bind (py_min [b; nadd hi t_step]) (fun hi => minim compiled k' (e0 :: l) lo hi tol)))))
        end)
     end))) by (destruct k; reflexivity).
  rewrite U. clear U.
  destruct (ts edges (span compiled a b pts)) as [r|e] eqn:TS.
  2: { right. right. left. destruct (ts_err _ _ _ TS) as (t & I & B). exists (length edges + 2)%nat, t. split; [lia|]. split; [apply (span_in compiled a b pts); [exact AB|unfold pts; lia|exact I]|]. exists e. split; [reflexivity|]. fold edges. rewrite firstn_all2 by lia. exact B. }
  cbn [bind].
  destruct r as [|best r'].
  { exfalso. unfold ts, tie_scores in TS. destruct (mapM (fun t => bind (tie_score Int_part edges t) (fun s => Ok (t, s))) (span compiled a b pts)) as [q|] eqn:M; [|discriminate].
    cbn [bind] in TS. injection TS as Q. pose proof (proj1 (SO q)) as P. rewrite Q in P. apply Permutation_sym, Permutation_nil in P. subst q.
    pose proof (mapM_spec _ _ _ M) as F. rewrite span_eq in F by (unfold pts; lia). unfold span_c in F. cbv zeta in F.
    assert (exists j, Z.to_nat pts = S j) as (j & Ej) by (exists (Z.to_nat (pts - 1)); unfold pts; lia). rewrite Ej in F. inversion F. }
  change (get (best :: r') 0) with (Ok best). cbn [bind]. destruct (ts_in _ _ _ best TS (or_introl eq_refl)) as (I & B).
  destruct (nlt (snd best) tol) eqn:C.
  { left. exists (fst best), (snd best). split; [reflexivity|]. split; [apply (span_in compiled a b pts); [exact AB|unfold pts; lia|exact I]|]. split; [exact B|]. apply Rltb_true. exact C. }
  destruct k as [|k']; [right; left; reflexivity|].
  destruct (finer Int_part sort compiled edges a b (rounds n_comp compiled)) as [[n lower]|e] eqn:FI.
  2: { right. right. left.
       assert (Q : forall ns, Forall (fun p => (2 <= snd p)%Z) ns -> Forall (fun p => (2 <= fst p)%Z) ns -> finer Int_part sort compiled edges a b ns = Err e ->
         exists n t, (2 <= n)%nat /\ a <= t <= b /\ tie_score Int_part (firstn n edges) t = Err e).
       { clear FI. induction ns as [|[m mp] ns IH]; intros F1 F2 E; [discriminate|]. inversion F1; subst. inversion F2; subst. cbn [finer] in E. fold ts in E.
         destruct (ts (firstn (Z.to_nat m) edges) (span compiled a b mp)) as [r|e'] eqn:TS2.
         - cbn [bind] in E. destruct (map fst (filter (fun s => nlt (snd s) (nofZ 1)) r)); [exact (IH H2 H4 E)|discriminate].
         - cbn [bind] in E. injection E as ->. destruct (ts_err _ _ _ TS2) as (t & I' & B'). exists (Z.to_nat m), t. cbn [fst] in H3. split; [lia|]. split; [|exact B'].
           apply (span_in compiled a b mp); assumption. }
       destruct (Q _ (proj1 (rounds_ok compiled)) ltac:(unfold rounds; destruct compiled; cbn [map]; repeat constructor; cbn [fst]; lia) FI) as (n & t & N2 & R & E).
       exists n, t. split; [exact N2|]. split; [exact R|]. exists e. split; [reflexivity|]. exact E. }
  cbn [bind]. destruct (finer_spec _ _ _ _ _ _ _ AB (proj1 (rounds_ok compiled)) FI) as (N & LI).
  destruct lower as [|x xs]; [right; left; reflexivity|].
  destruct N as [N|N]; [discriminate N|].
  destruct (step_of_ok compiled a b n AB (proj2 (rounds_ok compiled) n N)) as (st & -> & SP). cbn [bind].
  destruct (py_min_R (x :: xs) ltac:(discriminate)) as (lo & -> & Ilo & Blo). destruct (py_max_R (x :: xs) ltac:(discriminate)) as (hi & -> & Ihi & Bhi). cbn [bind].
  destruct (py_max2 a (nsub lo st)) as (a' & -> & A1 & A2 & A3). destruct (py_min2 b (nadd hi st)) as (b' & -> & B1 & B2 & B3). cbn [bind nsub nadd NumR] in *  .
  pose proof (LI lo Ilo). pose proof (LI hi Ihi). pose proof (Blo hi Ihi).
  right. right. right. exists k', a', b'. split; [reflexivity|]. split; [exact A1|]. split; [|split; [exact B1|reflexivity]].
  destruct A3 as [->| ->]; destruct B3 as [->| ->]; lra.
Qed.
End Search.

(** *** Outcomes of the search *)
Section Outcomes.
Variable sort : list (R * R) -> list (R * R).
Hypothesis SO : sorts sort.
Variable n_comp : Z.
Hypothesis NC : (200000 <= n_comp)%Z.
Notation search := (minim sort n_comp).
Lemma search_ok compiled k e0 l : forall a b tol p, 0 < a -> a <= b -> search compiled k (e0 :: l) a b tol = Ok p ->
  a <= p <= b /\ exists s, tie_score Int_part (map (fun e => e - e0) (e0 :: l)) p = Ok s /\ s < tol.
Proof.
  induction k as [|k IH]; intros a b tol p A AB E;
  (lazymatch type of E with minim _ _ _ ?kk _ _ _ _ = _ => destruct (round_cases sort SO n_comp NC compiled kk e0 l a b tol A AB) as [(q & s & E' & R & S & L)|[E'|[(n & t & _ & _ & e & E' & _)|(k' & a' & b' & K & A1 & A2 & A3 & E')]]] end);
  rewrite E in E'; try discriminate E'; try discriminate K.
  - injection E' as <-. split; [exact R|]. exists s. split; assumption.
  - injection E' as <-. split; [exact R|]. exists s. split; assumption.
  - injection K as <-. symmetry in E'. destruct (IH a' b' tol p ltac:(lra) A2 E') as (R & S). split; [lra|exact S].
Qed.
Lemma search_err compiled k e0 l : forall a b tol e, 0 < a -> a <= b -> search compiled k (e0 :: l) a b tol = Err e ->
  e = ArithmeticError \/ (e = UndefinedBehaviour /\ forall e1 l', l = e1 :: l' -> e1 - e0 <= b / 2).
Proof.
  induction k as [|k IH]; intros a b tol e A AB E;
  (lazymatch type of E with minim _ _ _ ?kk _ _ _ _ = _ => destruct (round_cases sort SO n_comp NC compiled kk e0 l a b tol A AB) as [(q & s & E' & R & S & L)|[E'|[(n & t & N & R & e' & E' & S)|(k' & a' & b' & K & A1 & A2 & A3 & E')]]] end);
  rewrite E in E'; try discriminate E'; try discriminate K; try (injection E' as <-; left; reflexivity).
  1,2: injection E' as <-; right; destruct n as [|[|n]]; try lia; cbn [map firstn] in S;
    (destruct l as [|e1 l']; cbn [map firstn] in S;
     [change [e0 - e0] with (map (fun e => e - e0) [e0]) in S; split; [exact (score_errors e0 [] t e ltac:(lra) S)|discriminate]
     |rewrite firstn_map in S; change (e0 - e0 :: e1 - e0 :: map (fun e => e - e0) (firstn n l')) with (map (fun e => e - e0) (e0 :: e1 :: firstn n l')) in S;
      split; [exact (score_errors e0 (e1 :: firstn n l') t e ltac:(lra) S)|];
      intros e2 l2 Q; injection Q as <- <-; apply Rnot_lt_le; intros H; destruct (score_exists e0 e1 (firstn n l') t ltac:(lra) ltac:(lra)) as (s & S'); rewrite S in S'; discriminate S']).
  injection K as <-. symmetry in E'. destruct (IH a' b' tol e ltac:(lra) A2 E') as [Q|(Q & Q')]; [left; exact Q|right]. split; [exact Q|].
  intros e1 l' EL. specialize (Q' e1 l' EL). lra.
Qed.
(** The first round succeeds if a tested period has a low enough score. *)
Lemma search_first compiled k e0 l a b tol g s :
  (forall t, a <= t <= b -> exists s, tie_score Int_part (map (fun e => e - e0) (e0 :: l)) t = Ok s) ->
  a <= b -> In g (span_c a b (Z.max 20 (n_comp / Z.of_nat (length (e0 :: l))))) -> tie_score Int_part (map (fun e => e - e0) (e0 :: l)) g = Ok s -> s < tol ->
  exists p, search compiled k (e0 :: l) a b tol = Ok p.
Proof.
  intros EX AB I S L.
  set (edges := map (fun e => e - e0) (e0 :: l)) in *  .
  assert (LE : length (e0 :: l) = length edges) by (unfold edges; rewrite map_length; reflexivity). rewrite LE in I. clear LE.
  destruct (ts_ok sort edges (span compiled a b (Z.max 20 (n_comp / Z.of_nat (length edges))))) as (r & TS).
  { intros t It. apply EX. apply (span_in compiled a b (Z.max 20 (n_comp / Z.of_nat (length edges)))); [exact AB|lia|exact It]. }
  destruct (ts_best sort SO edges _ r g s TS) as (best & r' & -> & B); [rewrite span_eq by lia; exact I|exact S|].
  exists (fst best).
  assert (U : exists f, search compiled k (e0 :: l) a b tol = bind (ts sort edges (span compiled a b (Z.max 20 (n_comp / Z.of_nat (length edges))))) (fun scores => bind (get scores 0) (fun best =>
     if nlt (snd best) tol then Ok (fst best) else f))) by (destruct k; eexists; reflexivity).
  destruct U as (f & ->). rewrite TS. cbn [bind]. change (get (best :: r') 0) with (Ok best). cbn [bind].
  cbn [nlt NumR]. rewrite (proj2 (Rltb_true _ _)) by lra. reflexivity.
Qed.
End Outcomes.

(** A grid point within one step of each period in the range. *)
Lemma grid_near a b n x : a <= x <= b -> a < b -> (2 <= n)%Z -> exists g, In g (span_c a b n) /\ Rabs (x - g) <= (b - a) / IZR (n - 1).
Proof.
  intros X AB N. set (st := (b - a) / IZR (n - 1)).
  assert (P : 0 < IZR (n - 1)) by (apply (IZR_lt 0); lia).
  assert (SP : 0 < st) by (apply Rmult_lt_0_compat; [lra|]; apply Rinv_0_lt_compat; exact P).
  assert (M : IZR (n - 1) * st = b - a) by (unfold st; field; lra).
  pose proof (floor_spec ((x - a) / st)) as (L & U). set (i := Int_part ((x - a) / st)) in *  .
  assert (E : x - a = (x - a) / st * st) by (field; lra).
  assert (I0 : (0 <= i)%Z).
  { assert (0 <= (x - a) / st) by (apply Rmult_le_pos; [lra|]; left; apply Rinv_0_lt_compat; exact SP). assert (- 1 < IZR i) by lra. apply (lt_IZR (-1)) in H0. lia. }
  assert (I1 : (i <= n - 1)%Z).
  { apply le_IZR. apply Rmult_le_reg_r with st; [exact SP|]. rewrite M. apply Rle_trans with ((x - a) / st * st); [apply Rmult_le_compat_r; lra|]. rewrite <- E. lra. }
  exists (a + IZR i * st). split.
  - unfold span_c. cbv zeta. apply in_map_iff. exists (Z.to_nat i). rewrite Z2Nat.id by exact I0. split; [reflexivity|]. apply in_seq. lia.
  - apply Rmult_le_compat_r with (r := st) in L; [|lra]. apply Rmult_lt_compat_r with (r := st) in U; [|lra]. rewrite <- E in *  . apply Rabs_le. lra.
Qed.
