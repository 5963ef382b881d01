(** Lemmas about Gaussian functions, mixtures and fits. *)
From Coq Require Import ZArith Reals Bool List Lia Lra Permutation.
Import ListNotations.
From Verif Require Import Base Num RBool StatsModel MathModel MathSpec MathProofs CdrSearchProofs.
Local Open Scope R_scope.

(** *** The first best element *)
Section Best.
Context {X : Type} (better : X -> X -> bool).
Hypothesis asym : forall a b, better a b = true -> better b a = false.
Hypothesis negtrans : forall a b c, better a b = false -> better b c = false -> better a c = false.
Lemma irr a : better a a = false.
Proof. destruct (better a a) eqn:E; [|reflexivity]. rewrite (asym a a E) in E. discriminate. Qed.
Definition is_best (l : list X) (i : nat) : Prop :=
  exists v, nth_error l i = Some v /\ forall j w, nth_error l j = Some w -> better w v = false /\ ((j < i)%nat -> better v w = true).
Lemma best_from_spec : forall l pre b bi, (bi < length pre)%nat -> is_best pre bi -> nth_error pre bi = Some b ->
  is_best (pre ++ l) (best_from better (length pre) b bi l).
Proof.
  induction l as [|x l IH]; intros pre b bi L B E; cbn [best_from]; [rewrite app_nil_r; exact B|].
  replace (pre ++ x :: l) with ((pre ++ [x]) ++ l) by (rewrite <- app_assoc; reflexivity).
  replace (S (length pre)) with (length (pre ++ [x])) by (rewrite app_length; cbn; lia).
  destruct B as (v & EV & BV). rewrite E in EV. injection EV as <-.
  destruct (better x b) eqn:C.
  - apply IH; [rewrite app_length; cbn; lia| |rewrite nth_error_app2 by lia; rewrite Nat.sub_diag; reflexivity].
    exists x. split; [rewrite nth_error_app2 by lia; rewrite Nat.sub_diag; reflexivity|]. intros j w J.
    destruct (Nat.lt_ge_cases j (length pre)) as [Q|Q].
    + rewrite nth_error_app1 in J by exact Q. destruct (BV j w J) as (W & _).
      assert (XW : better x w = true) by (destruct (better x w) eqn:D; [reflexivity|rewrite (negtrans x w b D W) in C; discriminate]).
      split; [|intros _; exact XW]. destruct (better w x) eqn:D; [|reflexivity].
      rewrite (negtrans w b x W (asym x b C)) in D. discriminate.
    + rewrite nth_error_app2 in J by exact Q. destruct (j - length pre)%nat eqn:D; [|destruct n; discriminate J]. cbn in J. injection J as <-. split; [apply irr|intros K; lia].
  - apply IH; [rewrite app_length; cbn; lia| |rewrite nth_error_app1 by exact L; exact E].
    exists b. split; [rewrite nth_error_app1 by exact L; exact E|]. intros j w J.
    destruct (Nat.lt_ge_cases j (length pre)) as [Q|Q].
    + rewrite nth_error_app1 in J by exact Q. exact (BV j w J).
    + rewrite nth_error_app2 in J by exact Q. destruct (j - length pre)%nat eqn:D; [|destruct n; discriminate J]. cbn in J. injection J as <-. split; [exact C|intros K; lia].
Qed.
Lemma arg_best_spec l : l <> [] -> exists i, arg_best better l = Ok i /\ is_best l i.
Proof.
  intros N. destruct l as [|x l]; [congruence|]. cbn [arg_best]. eexists. split; [reflexivity|].
  apply (best_from_spec l [x] x 0%nat); [cbn; lia| |reflexivity]. exists x. split; [reflexivity|]. intros [|[|j]] w J; try discriminate J. cbn in J. injection J as <-. split; [apply irr|intros K; lia].
Qed.
Lemma best_unique_index l i j : is_best l i -> is_best l j -> i = j.
Proof.
  intros (v & V & BV) (w & W & BW). destruct (Nat.lt_trichotomy i j) as [L|[E|L]]; [exfalso|exact E|exfalso].
  - destruct (BW i v V) as (_ & Q). specialize (Q L). destruct (BV j w W) as (Q' & _). congruence.
  - destruct (BV j w W) as (_ & Q). specialize (Q L). destruct (BW i v V) as (Q' & _). congruence.
Qed.
End Best.

Lemma Rltb_asym a b : Rltb a b = true -> Rltb b a = false.
Proof. rewrite Rltb_true, Rltb_false. lra. Qed.
Lemma Rltb_neg a b c : Rltb a b = false -> Rltb b c = false -> Rltb a c = false.
Proof. rewrite !Rltb_false. lra. Qed.
Definition ext_gt (a b : ext) := ext_lt b a.
Lemma ext_asym a b : ext_gt a b = true -> ext_gt b a = false.
Proof. destruct a, b; cbn; try discriminate; try reflexivity. apply Rltb_asym. Qed.
Lemma ext_neg a b c : ext_gt a b = false -> ext_gt b c = false -> ext_gt a c = false.
Proof. destruct a, b, c; cbn; try discriminate; try reflexivity. rewrite !Rltb_false. lra. Qed.

(** *** The impulse *)
Lemma closest_best m x i : is_best Rltb (map (fun t => Rabs (t - m)) x) i <-> closest m x i.
Proof.
  split.
  - intros (v & V & B). rewrite nth_error_map in V. destruct (nth_error x i) as [t|] eqn:E; [|discriminate V]. cbn in V. injection V as <-. exists t. split; [exact E|].
    intros j w J. destruct (B j (Rabs (w - m))) as (P & Q); [rewrite nth_error_map, J; reflexivity|]. apply Rltb_false in P. split; [exact P|]. intros L. apply Rltb_true. exact (Q L).
  - intros (v & V & B). exists (Rabs (v - m)). split; [rewrite nth_error_map, V; reflexivity|]. intros j w J. rewrite nth_error_map in J. destruct (nth_error x j) as [t|] eqn:E; [|discriminate J]. cbn in J. injection J as <-.
    destruct (B j t E) as (P & Q). split; [apply Rltb_false; exact P|]. intros L. apply Rltb_true. exact (Q L).
Qed.
Lemma argmin_closest m x : x <> [] -> exists i, arg_best Rltb (map (fun t => Rabs (t - m)) x) = Ok i /\ closest m x i.
Proof.
  intros N. destruct (arg_best_spec Rltb Rltb_asym Rltb_neg (map (fun t => Rabs (t - m)) x)) as (i & E & B); [destruct x; [congruence|discriminate]|].
  exists i. split; [exact E|]. apply closest_best. exact B.
Qed.
Lemma closest_unique m x i j : closest m x i -> closest m x j -> i = j.
Proof. intros A B. apply closest_best in A. apply closest_best in B. exact (best_unique_index Rltb _ i j A B). Qed.
Lemma set_nth_spec {X} (v : X) : forall l i, (i < length l)%nat -> exists l', set_nth l i v = Some l' /\ length l' = length l
  /\ nth_error l' i = Some v /\ forall j, j <> i -> nth_error l' j = nth_error l j.
Proof.
  induction l as [|x l IH]; intros i L; [cbn in L; lia|]. destruct i as [|i]; cbn [set_nth].
  - eexists. split; [reflexivity|]. split; [reflexivity|]. split; [reflexivity|]. intros [|j] J; [congruence|reflexivity].
  - destruct (IH i) as (l' & E & LL & V & O); [cbn in L; lia|]. rewrite E. eexists. split; [reflexivity|]. split; [cbn; lia|]. split; [exact V|]. intros [|j] J; [reflexivity|]. cbn. apply O. lia.
Qed.
Definition bell' (g : gaussian) (x : R) : R := amplitude g / (Rabs (stddev g) * sqrt (2 * PI)) * exp (- ((x - mean g)² / (2 * (stddev g)²))).
Lemma bell_eq g x : stddev g <> 0 -> bell g x = bell' g x.
Proof.
  intros N. unfold bell, bell'. pose proof PI_RGT_0 as P. rewrite sqrt_mult by (try lra; apply pow2_ge_0). replace (sqrt (stddev g ^ 2)) with (Rabs (stddev g)) by (rewrite <- Rsqr_pow2; symmetry; apply sqrt_Rsqr_abs).
  replace (- ((x - mean g) / stddev g) ^ 2 / 2) with (- ((x - mean g)² / (2 * (stddev g)²))) by (unfold Rsqr; field; exact N).
  field. split; [apply Rgt_not_eq, sqrt_lt_R0; lra|apply Rabs_no_R0; exact N].
Qed.
(** One component on an array *)
Lemma compute_array_spec g x : x <> [] -> exists y, compute_array g x = Ok y /\ length y = length x
  /\ forall i t, nth_error x i = Some t ->
       if Req_EM_T (stddev g) 0 then (closest (mean g) x i -> nth_error y i = Some PInf) /\ (~ closest (mean g) x i -> nth_error y i = Some (Fin 0))
       else nth_error y i = Some (Fin (bell' g t)).
Proof.
  intros N. unfold compute_array. destruct (Reqb (stddev g) 0) eqn:S0; [apply Reqb_true in S0 | apply Reqb_false in S0].
  - destruct (argmin_closest (mean g) x N) as (i & E & C). rewrite E. cbn [bind]. pose proof C as (v & V & _).
    assert (I : (i < length x)%nat) by (apply nth_error_Some; rewrite V; discriminate).
    destruct (set_nth_spec PInf (map (fun _ => Fin 0) x) i) as (y & EY & L & VY & O); [rewrite map_length; exact I|]. rewrite EY. exists y. split; [reflexivity|]. split; [rewrite L, map_length; reflexivity|].
    intros j t J. destruct (Req_EM_T (stddev g) 0) as [_|Q]; [|congruence]. split.
    + intros CJ. rewrite (closest_unique _ _ _ _ CJ C). exact VY.
    + intros CJ. rewrite O by (intros ->; exact (CJ C)). rewrite nth_error_map, J. reflexivity.
  - eexists. split; [reflexivity|]. split; [apply map_length|]. intros i t I. destruct (Req_EM_T (stddev g) 0) as [Q|_]; [congruence|]. rewrite nth_error_map, I. cbn. rewrite bell_eq by exact S0. reflexivity.
Qed.
(** *** Mixtures *)
Definition finite_part (g : gaussian) (t : R) : R := if Req_EM_T (stddev g) 0 then 0 else bell' g t.
Lemma smooth_cons g gs t : smooth (g :: gs) t = finite_part g t + smooth gs t.
Proof.
  unfold smooth, finite_part. cbn [filter]. destruct (Req_EM_T (stddev g) 0); [ring|]. cbn [map]. rewrite total_cons. reflexivity.
Qed.
Definition zip_add (a b : list ext) := map (fun p => ext_add (fst p) (snd p)) (combine a b).
Lemma zip_add_length a b : length a = length b -> length (zip_add a b) = length a.
Proof. intros L. unfold zip_add. rewrite map_length, combine_length. lia. Qed.
Lemma zip_add_nth a : forall b i u v, nth_error a i = Some u -> nth_error b i = Some v -> nth_error (zip_add a b) i = Some (ext_add u v).
Proof.
  induction a as [|x a IH]; intros [|y b] [|i] u v A B; try discriminate; cbn in *  .
  - injection A as <-. injection B as <-. reflexivity.
  - exact (IH b i u v A B).
Qed.
Lemma mix_fold x : x <> [] -> forall gs acc, length acc = length x ->
  exists rows y, mapM (fun g => compute_array g x) gs = Ok rows /\ fold_left zip_add rows acc = y /\ length y = length x
    /\ forall i t, nth_error x i = Some t ->
        (((exists g, In g gs /\ impulse g /\ closest (mean g) x i) \/ nth_error acc i = Some PInf) -> nth_error y i = Some PInf)
        /\ (forall a, ~ (exists g, In g gs /\ impulse g /\ closest (mean g) x i) -> nth_error acc i = Some (Fin a) -> nth_error y i = Some (Fin (a + smooth gs t))).
Proof.
  intros N. induction gs as [|g gs IH]; intros acc L.
  - exists [], acc. split; [reflexivity|]. split; [reflexivity|]. split; [exact L|]. intros i t I. split.
    + intros [(g & [] & _)|E]; exact E.
    + intros a _ E. rewrite E. f_equal. f_equal. unfold smooth. cbn. ring.
  - destruct (compute_array_spec g x N) as (r & ER & LR & NR). destruct (IH (zip_add acc r)) as (rows & y & EM & EF & LY & NY); [rewrite zip_add_length; lia|].
    exists (r :: rows), y. cbn [mapM]. rewrite ER. cbn [bind]. rewrite EM. cbn [bind]. split; [reflexivity|]. split; [exact EF|]. split; [exact LY|].
    intros i t I. destruct (NY i t I) as (PI1 & FI1). specialize (NR i t I).
    destruct (nth_error acc i) as [ai|] eqn:EA; [|apply nth_error_None in EA; assert (i < length x)%nat by (apply nth_error_Some; rewrite I; discriminate); lia].
    unfold impulse in *  . destruct (Req_EM_T (stddev g) 0) as [S0|S0].
    + destruct NR as (CP & CN). split.
      * intros [(h & [<-|H] & HS & HC)|E].
        -- apply PI1. right. rewrite (zip_add_nth _ _ _ _ _ EA (CP HC)). destruct ai; reflexivity.
        -- apply PI1. left. exists h. auto.
        -- injection E as ->. apply PI1. right. destruct (nth_error r i) as [ri|] eqn:RI; [|apply nth_error_None in RI; assert (i < length x)%nat by (apply nth_error_Some; rewrite I; discriminate); lia].
           rewrite (zip_add_nth _ _ _ _ _ EA RI). reflexivity.
      * intros a NE E. injection E as ->. assert (NC : ~ closest (mean g) x i) by (intros C; apply NE; exists g; split; [left; reflexivity|auto]).
        rewrite smooth_cons. unfold finite_part. destruct (Req_EM_T (stddev g) 0) as [_|Q]; [|congruence]. replace (a + (0 + smooth gs t)) with (a + 0 + smooth gs t) by ring. apply FI1.
        -- intros (h & H & HS & HC). apply NE. exists h. split; [right; exact H|auto].
        -- rewrite (zip_add_nth _ _ _ _ _ EA (CN NC)). reflexivity.
    + split.
      * intros [(h & [<-|H] & HS & HC)|E]; [congruence| |].
        -- apply PI1. left. exists h. auto.
        -- injection E as ->. apply PI1. right. rewrite (zip_add_nth _ _ _ _ _ EA NR). reflexivity.
      * intros a NE E. injection E as ->. rewrite smooth_cons. unfold finite_part. destruct (Req_EM_T (stddev g) 0) as [Q|_]; [congruence|]. replace (a + (bell' g t + smooth gs t)) with (a + bell' g t + smooth gs t) by ring. apply FI1.
        -- intros (h & H & HS & HC). apply NE. exists h. split; [right; exact H|auto].
        -- rewrite (zip_add_nth _ _ _ _ _ EA NR). reflexivity.
Qed.
Lemma mix_array_spec gs x : x <> [] -> exists y, mix_array gs x = Ok y /\ length y = length x
  /\ forall i t, nth_error x i = Some t ->
       ((exists g, In g gs /\ impulse g /\ closest (mean g) x i) -> nth_error y i = Some PInf)
       /\ (~ (exists g, In g gs /\ impulse g /\ closest (mean g) x i) -> nth_error y i = Some (Fin (smooth gs t))).
Proof.
  intros N. destruct (mix_fold x N gs (map (fun _ => Fin 0) x)) as (rows & y & EM & EF & LY & NY); [apply map_length|].
  exists y. unfold mix_array. rewrite EM. cbn [bind]. split; [f_equal; exact EF|]. split; [exact LY|]. intros i t I. destruct (NY i t I) as (P & Q). split; [intros E; apply P; left; exact E|].
  intros E. rewrite (Q 0 E) by (rewrite nth_error_map, I; reflexivity). f_equal. f_equal. ring.
Qed.
Lemma mix_float_spec gs t :
  ((exists g, In g gs /\ impulse g /\ mean g = t) -> mix_float gs t = PInf)
  /\ (~ (exists g, In g gs /\ impulse g /\ mean g = t) -> mix_float gs t = Fin (smooth gs t)).
Proof.
  unfold mix_float. assert (G : forall gs acc,
    (((exists g, In g gs /\ impulse g /\ mean g = t) \/ acc = PInf) -> fold_left (fun s g => ext_add s (compute_float g t)) gs acc = PInf)
    /\ (forall a, ~ (exists g, In g gs /\ impulse g /\ mean g = t) -> acc = Fin a -> fold_left (fun s g => ext_add s (compute_float g t)) gs acc = Fin (a + smooth gs t))).
  { clear gs. induction gs as [|g gs IH]; intros acc; cbn [fold_left].
    - split; [intros [(g & [] & _)|E]; exact E|]. intros a _ ->. f_equal. unfold smooth. cbn. ring.
    - specialize (IH (ext_add acc (compute_float g t))). destruct IH as (P & Q). split.
      + intros [(h & [<-|H] & HS & HM)|E].
        * apply P. right. unfold compute_float. unfold impulse in HS. rewrite (proj2 (Reqb_true _ _) HS). rewrite (proj2 (Reqb_true t (mean g))) by (symmetry; exact HM). destruct acc; reflexivity.
        * apply P. left. exists h. auto.
        * apply P. right. rewrite E. reflexivity.
      + intros a NE ->. rewrite smooth_cons. replace (a + (finite_part g t + smooth gs t)) with (a + finite_part g t + smooth gs t) by ring. apply Q.
        * intros (h & H & HS & HM). apply NE. exists h. split; [right; exact H|auto].
        * unfold compute_float, finite_part. destruct (Req_EM_T (stddev g) 0) as [S0|S0].
          -- rewrite (proj2 (Reqb_true _ _) S0). rewrite (proj2 (Reqb_false t (mean g))); [reflexivity|]. intros E. apply NE. exists g. split; [left; reflexivity|]. split; [exact S0|congruence].
          -- rewrite (proj2 (Reqb_false _ _) S0). cbn. rewrite bell_eq by exact S0. reflexivity. }
  destruct (G gs (Fin 0)) as (P & Q). split; [intros E; apply P; left; exact E|]. intros E. rewrite (Q 0 E eq_refl). f_equal. ring.
Qed.

(** *** Centre *)
Lemma linspace_points a b n : (2 <= n)%nat -> linspace a b n = map (fun i => a + INR i * ((b - a) / INR (n - 1))) (seq 0 n).
Proof.
  intros N. replace n with (Z.to_nat (Z.of_nat n)) at 1 by lia. rewrite linspace_grid by lia. rewrite Nat2Z.id. apply map_ext. intros i. rewrite <- INR_IZR_INZ. f_equal. f_equal. f_equal. rewrite INR_IZR_INZ. f_equal. lia.
Qed.
Lemma peak_spec gs lo hi n : n = 1000%nat -> exists x i v, peak gs lo hi = Ok x /\ x = lo + INR i * ((hi - lo) / INR (n - 1)) /\ (i < n)%nat
  /\ nth_error (linspace lo hi n) i = Some x
  /\ (exists y, mix_array gs (linspace lo hi n) = Ok y /\ nth_error y i = Some v /\ forall j w, nth_error y j = Some w -> ext_lt v w = false).
Proof.
  intros EN. unfold peak. rewrite <- EN. assert (L : length (linspace lo hi n) = n) by (rewrite linspace_points by lia; rewrite map_length, seq_length; reflexivity).
  assert (NE : linspace lo hi n <> []) by (intros Q; rewrite Q in L; cbn in L; lia).
  destruct (mix_array_spec gs _ NE) as (y & EY & LY & _). rewrite EY. cbn [bind].
  destruct (arg_best_spec ext_gt ext_asym ext_neg y) as (i & E & v & V & B); [intros Q; rewrite Q in LY; cbn in LY; lia|].
  change (fun a b => ext_lt b a) with ext_gt. rewrite E. cbn [bind]. assert (I : (i < n)%nat) by (rewrite <- L, <- LY; apply nth_error_Some; rewrite V; discriminate).
  set (x := lo + INR i * ((hi - lo) / INR (n - 1))). assert (EX : nth_error (linspace lo hi n) i = Some x) by (rewrite linspace_points by lia; apply nth_error_seq_map; exact I).
  exists x, i, v. unfold get. rewrite EX. split; [reflexivity|]. split; [reflexivity|]. split; [exact I|]. split; [reflexivity|]. exists y. split; [reflexivity|]. split; [exact V|]. intros j w J. apply (B j w J).
Qed.
