(** Clock recovery from edges. *)
From Coq Require Import ZArith Reals Bool List Lia Lra Permutation Sorted.
Import ListNotations.
From Verif Require Import Base Num RBool StatsModel CdrModel CdrSpec CdrProofs CdrSearchProofs.
Local Open Scope R_scope.

Lemma existsb_jumps t (l : list R) : existsb (fun d => nlt (ndiv t (nofZ 2)) (nabs d)) (diff l) = negb (jumps t l =? 0)%nat.
Proof.
  rewrite <- jumps_count. generalize (diff l) as q. intros q. induction q as [|a q IH]; [reflexivity|]. cbn [existsb filter].
  destruct (nlt (ndiv t (nofZ 2)) (nabs a)); [reflexivity|]. exact IH.
Qed.
Lemma sorted_rising (l : list R) : rising l -> sorted l = true.
Proof.
  induction l as [|a l IH]; intros S; [reflexivity|]. destruct l as [|b l]; [reflexivity|]. destruct S as (L & S).
  change (sorted (a :: b :: l)) with (nle a b && sorted (b :: l)). rewrite (IH S). cbn [nle NumR]. rewrite (proj2 (Rleb_true a b) L). reflexivity.
Qed.
Lemma rising_last l : forall e, rising (e :: l) -> e <= last (e :: l) 0.
Proof.
  induction l as [|b l IH]; intros e S; [cbn; lra|]. destruct S as (L & S). specialize (IH b S). change (last (e :: b :: l) 0) with (last (b :: l) 0). lra.
Qed.
Lemma linspace_steps t n : (0 <= n)%Z ->
  linspace 0 (t * IZR (n - 1)) (Z.to_nat n) = map (fun i => IZR (Z.of_nat i) * t) (seq 0 (Z.to_nat n)).
Proof.
  intros N. assert (n = 0 \/ n = 1 \/ 2 <= n)%Z as [->|[->|H]] by lia; [reflexivity|change ([0] = [0 * t]); rewrite Rmult_0_l; reflexivity|].
  rewrite linspace_grid by exact H. apply map_ext. intros i. assert (0 < IZR (n - 1)) by (apply (IZR_lt 0); lia). field. lra.
Qed.
Lemma previous_held points first x : held points first x (previous points first x).
Proof.
  induction points as [|p l IH] using rev_ind; [left; split; [reflexivity|intros p []]|].
  unfold previous in *  . rewrite fold_left_app. cbn [fold_left]. cbn [nle NumR]. destruct (Rleb (fst p) x) eqn:E; [apply Rleb_true in E | apply Rleb_false in E].
  - right. exists l, p, []. split; [reflexivity|]. split; [reflexivity|]. split; [exact E|intros q []].
  - destruct IH as [(V & B)|(a & q & b & El & V & L & B)].
    + left. split; [exact V|]. intros q I. apply in_app_iff in I. destruct I as [I|[<-|[]]]; [exact (B q I)|exact E].
    + right. exists a, q, (b ++ [p]). split; [rewrite El, <- app_assoc; reflexivity|]. split; [exact V|]. split; [exact L|].
      intros r I. apply in_app_iff in I. destruct I as [I|[<-|[]]]; [exact (B r I)|exact E].
Qed.
Lemma ceil_spec x : let n := (- Int_part (0 - x))%Z in IZR n - 1 < x <= IZR n.
Proof. cbv zeta. rewrite opp_IZR. pose proof (floor_spec (0 - x)). lra. Qed.

(** The part of run after the period is known. *)
Definition finish (t : R) (data_edges : list R) (resample_ties : bool) : result (list R * list R) :=
  bind (get data_edges 0) (fun t_start =>
  let t2 := ndiv t (nofZ 2) in
  bind (mapM (fun e => bind (fmod Int_part (nadd (nsub e t_start) t2) t) (fun m => Ok (nsub m t2))) data_edges) (fun ties =>
  let m := mean ties in
  let t_start := nadd t_start m in
  let ties := map (fun x => nsub x m) ties in
  if existsb (fun d => nlt t2 (nabs d)) (diff ties) then Err ArithmeticError else
  bind (np_div (nsub (last data_edges (nofZ 0)) (hd (nofZ 0) data_edges)) t) (fun q =>
  let n := (- Int_part (nsub (nofZ 0) q))%Z in
  if (n <? 0)%Z then Err ValueError else
  let clk_edges := map (fun x => nadd (nadd x t_start) t2) (linspace (nofZ 0) (nmul t (nofZ (n - 1))) (Z.to_nat n)) in
  if resample_ties then bind (resample previous data_edges ties (hd (nofZ 0) ties) clk_edges) (fun ties => Ok (clk_edges, ties))
  else Ok (clk_edges, ties)))).

Lemma total_map_in f l a b : (forall x : R, In x l -> a <= f x < b) -> l <> [] -> INR (length l) * a <= total (map f l) < INR (length l) * b.
Proof.
  intros H NE. destruct l as [|x l]; [congruence|]. clear NE.
  assert (G : forall l : list R, (forall x, In x l -> a <= f x < b) -> INR (length l) * a <= total (map f l) <= INR (length l) * b).
  { clear. induction l as [|y l IH]; intros H; [cbn; lra|]. cbn [length map]. rewrite S_INR. change (total (f y :: map f l)) with (f y + total (map f l)).
    pose proof (H y (or_introl eq_refl)). pose proof (IH (fun x h => H x (or_intror h))). lra. }
  cbn [length map]. rewrite S_INR. change (total (f x :: map f l)) with (f x + total (map f l)).
  pose proof (H x (or_introl eq_refl)). pose proof (G l (fun x h => H x (or_intror h))). lra.
Qed.
Lemma finish_cases t e0 l rs : 0 < t -> rising (e0 :: l) ->
  (jumps t (map (tv e0 t) (e0 :: l)) <> 0%nat /\ finish t (e0 :: l) rs = Err ArithmeticError)
  \/ (jumps t (map (tv e0 t) (e0 :: l)) = 0%nat /\ exists clk ties, finish t (e0 :: l) rs = Ok (clk, ties) /\ clock_of (e0 :: l) t rs clk ties
      /\ ((forall e, In e l -> tv e0 t e = 0) -> clk = map (fun i => e0 + t / 2 + INR i * t) (seq 0 (length clk)) /\ forall x, In x ties -> x = 0)).
Proof.
  intros T RI. unfold finish. change (get (e0 :: l) 0) with (Ok e0). cbn [bind]. cbv zeta.
  rewrite (mapM_all _ (tv e0 t)).
  2: { intros e _. rewrite fmod_R by lra. reflexivity. }
  cbn [bind]. set (tvs := map (tv e0 t) (e0 :: l)). set (m := mean tvs).
  rewrite existsb_jumps.
  assert (J : jumps t (map (fun x => nsub x m) tvs) = jumps t tvs) by (rewrite <- (jumps_shift t (- m) tvs); reflexivity).
  rewrite J. destruct (Nat.eqb_spec (jumps t tvs) 0) as [Z|Z]; [|left; split; [exact Z|reflexivity]].
  right. split; [exact Z|]. cbn [negb]. unfold np_div. cbn [neq nofZ NumR]. rewrite (proj2 (Reqb_false t 0)) by lra. cbn [bind].
  cbn [hd nsub ndiv nmul nofZ NumR nadd].
  set (q := (last (e0 :: l) 0 - e0) / t). pose proof (ceil_spec q) as CS. cbv zeta in CS. set (n := (- Int_part (0 - q))%Z) in *  .
  pose proof (rising_last l e0 RI) as LA.
  assert (Q0 : 0 <= q) by (apply Rmult_le_pos; [lra|]; left; apply Rinv_0_lt_compat; exact T).
  assert (N0 : (0 <= n)%Z) by (apply le_IZR; lra).
  rewrite (proj2 (Z.ltb_ge n 0)) by exact N0. rewrite linspace_steps by exact N0. rewrite map_map.
  assert (LT : length tvs = S (length l)) by (unfold tvs; rewrite map_length; reflexivity).
  assert (INP : 0 < INR (S (length l))) by (apply lt_0_INR; lia).
  assert (ME : m = total tvs / INR (S (length l))) by (unfold m; rewrite mean_eq, LT; reflexivity).
  assert (MR : - (t / 2) <= m < t / 2).
  { destruct (total_map_in (tv e0 t) (e0 :: l) (- (t / 2)) (t / 2) (fun x _ => tv_range e0 t T x) ltac:(discriminate)) as (B1 & B2). cbn [length] in B1, B2. fold tvs in B1, B2.
    assert (MM : total tvs = INR (S (length l)) * m) by (rewrite ME; field; lra). rewrite MM in B1, B2. split; [apply Rmult_le_reg_l with (INR (S (length l))); lra|apply Rmult_lt_reg_l with (INR (S (length l))); lra]. }
  assert (CLK : map (fun x => IZR (Z.of_nat x) * t + (e0 + m) + t / 2) (seq 0 (Z.to_nat n)) = map (fun i => (e0 + m) + t / 2 + INR i * t) (seq 0 (Z.to_nat n))).
  { apply map_ext. intros i. rewrite <- INR_IZR_INZ. ring. }
  rewrite CLK. clear CLK. set (clk := map (fun i => (e0 + m) + t / 2 + INR i * t) (seq 0 (Z.to_nat n))).
  set (errors := map (fun x => x - m) tvs).
  set (ties := if rs then map (previous (combine (e0 :: l) errors) (hd 0 errors)) clk else errors).
  exists clk, ties. split; [|split].
  - destruct rs; [|reflexivity]. unfold resample. rewrite (sorted_rising _ RI). reflexivity.
  - exists (e0 + m), (Z.to_nat n), (map (nb e0 t) (e0 :: l)), errors. cbn [hd].
    assert (NN : INR (Z.to_nat n) = IZR n) by (rewrite INR_IZR_INZ, Z2Nat.id by exact N0; reflexivity).
    split; [lra|]. split; [reflexivity|]. split.
    { rewrite NN. assert (E : last (e0 :: l) 0 - e0 = q * t) by (unfold q; field; lra). rewrite E. split; [apply Rmult_lt_compat_r; lra|apply Rmult_le_compat_r; lra]. }
    split; [apply map_length|]. split; [unfold errors, tvs; rewrite !map_length; reflexivity|]. split.
    { unfold errors, tvs. generalize (e0 :: l) as k. induction k as [|e k IH]; [reflexivity|]. cbn [map combine fst snd]. rewrite <- IH. f_equal. pose proof (tv_pos e0 t e). lra. }
    split.
    { unfold errors. change (sum (fun x => x - m) tvs = 0). rewrite sum_sub, sum_const, LT. unfold sum. rewrite map_id, ME. field. lra. }
    split; [unfold errors; exact (eq_trans J Z)|].
    unfold ties. destruct rs; [|reflexivity]. clear. induction clk as [|c clk IH]; cbn [map]; constructor; [apply previous_held|exact IH].
  - intros Z0. assert (TZ : forall x, In x tvs -> x = 0).
    { intros x I. unfold tvs in I. cbn [map] in I. destruct I as [<-|I]; [apply tv_first; exact T|]. apply in_map_iff in I. destruct I as (e & <- & I). exact (Z0 e I). }
    assert (M0 : m = 0).
    { rewrite ME. replace (total tvs) with 0; [unfold Rdiv; ring|]. clear -TZ. induction tvs as [|x k IH]; [reflexivity|]. change (total (x :: k)) with (x + total k). rewrite <- IH by (intros y h; apply TZ; right; exact h).
      rewrite (TZ x (or_introl eq_refl)). ring. }
    split.
    + unfold clk. rewrite map_length, seq_length. apply map_ext. intros i. rewrite M0. ring.
    + assert (EZ : forall x, In x errors -> x = 0) by (intros x I; unfold errors in I; apply in_map_iff in I; destruct I as (y & <- & I); rewrite (TZ y I), M0; ring).
      intros x I. unfold ties in I. destruct rs; [|exact (EZ x I)]. apply in_map_iff in I. destruct I as (c & <- & _).
      destruct (previous_held (combine (e0 :: l) errors) (hd 0 errors) c) as [(-> & _)|(a & p & b & E & -> & _)].
      * apply EZ. unfold errors, tvs. left. reflexivity.
      * apply EZ. apply in_combine_r with (l := e0 :: l) (x := fst p). rewrite <- surjective_pairing, E. apply in_app_iff. right. left. reflexivity.
Qed.

(** *** The recovered period is positive *)
Lemma numbered_length t edges : forall ks, numbered t edges ks -> length ks = length edges.
Proof.
  induction edges as [|e1 edges IH]; intros ks C; [destruct C|].
  destruct edges as [|e2 edges]; destruct ks as [|k1 [|k2 ks]]; try destruct C as []; [reflexivity|]. cbn [length]. f_equal. exact (IH (k2 :: ks) H0).
Qed.
(** In rising edges a higher number means a later edge. *)
Lemma numbered_mono t edges : forall ks, 0 < t -> rising edges -> numbered t edges ks ->
  forall x y, In x (combine ks edges) -> In y (combine ks edges) -> (fst x < fst y)%Z -> snd x < snd y.
Proof.
  intros ks T. revert ks.
  assert (G : forall edges ks, rising edges -> numbered t edges ks -> forall e1 l k1 m, edges = e1 :: l -> ks = k1 :: m ->
     forall y, In y (combine ks edges) -> (k1 <= fst y)%Z /\ e1 <= snd y /\ ((k1 < fst y)%Z -> e1 < snd y)).
  { clear edges. induction edges as [|a edges IH]; intros ks RI N e1 l k1 m Ee Ek y I; [discriminate|]. injection Ee as -> <-. subst ks.
    destruct edges as [|e2 edges].
    - destruct m as [|? ?]; [|destruct N]. cbn [combine] in I. destruct I as [<-|[]]. cbn. split; [lia|]. split; [lra|lia].
    - destruct m as [|k2 m]; [destruct N|]. destruct RI as (L & RI). destruct N as (A & N). cbn [combine] in I.
      destruct I as [<-|I]; [cbn; split; [lia|]; split; [lra|lia]|].
      destruct (IH (k2 :: m) RI N e2 edges k2 m eq_refl eq_refl y I) as (B1 & B2 & B3).
      pose proof (Rle_abs (e2 - e1 - IZR (k2 - k1) * t)) as A1. pose proof (Rle_abs (- (e2 - e1 - IZR (k2 - k1) * t))) as A2. rewrite Rabs_Ropp in A2.
      assert (K : (k1 <= k2)%Z).
      { destruct (Z_le_gt_dec k1 k2); [assumption|exfalso]. assert (Q : IZR (k2 - k1) <= -1) by (apply (IZR_le _ (-1)); lia).
        pose proof (Rmult_le_compat_r t _ _ ltac:(lra) Q). lra. }
      split; [lia|]. split; [lra|]. intros H. destruct (Z.eq_dec k1 k2) as [->|NK].
      + specialize (B3 H). lra.
      + assert (Q : 1 <= IZR (k2 - k1)) by (apply (IZR_le 1); lia). pose proof (Rmult_le_compat_r t _ _ ltac:(lra) Q). lra. }
  induction edges as [|e1 edges IH]; intros ks RI N x y Ix Iy L; [destruct N|].
  destruct ks as [|k1 ks]; [destruct edges; destruct N|].
  pose proof (G _ _ RI N e1 edges k1 ks eq_refl eq_refl) as H.
  cbn [combine] in Ix, Iy. destruct Ix as [<-|Ix].
  - exact (proj2 (proj2 (H y Iy)) L).
  - destruct Iy as [<-|Iy].
    + exfalso. pose proof (proj1 (H x (or_intror Ix))). cbn [fst] in *  . lia.
    + destruct edges as [|e2 edges]; [destruct ks; destruct Ix|]. destruct ks as [|k2 ks]; [destruct N|]. destruct RI as (_ & RI). destruct N as (_ & N).
      exact (IH (k2 :: ks) RI N x y Ix Iy L).
Qed.
Section Positive.
Variable l : list (R * R).
Hypothesis NE : l <> [].
Let n := INR (length l).
Let mx := sum fst l / n.
Let my := sum snd l / n.
Let sxx := sum (fun p => (fst p - mx) * (fst p - mx)) l.
Let sxy := sum (fun p => (fst p - mx) * (snd p - my)) l.
Hypothesis SX : sxx <> 0.
Hypothesis MO : forall x y, In x l -> In y l -> fst x < fst y -> snd x < snd y.
Lemma sxy_pos : 0 < sxy.
Proof.
  pose proof (n_pos l NE) as NP. fold n in NP. pose proof (centre_x l NE) as CX. fold n mx in CX.
  assert (exists x, In x l /\ fst x < mx) as (x0 & I0 & L0).
  { destruct (Classical_Prop.classic (exists x, In x l /\ fst x < mx)) as [H|H]; [exact H|exfalso]. apply SX.
    assert (A : forall x, In x l -> 0 <= fst x - mx) by (intros x I; destruct (Rlt_dec (fst x) mx); [exfalso; apply H; exists x; split; assumption|lra]).
    unfold sxx. rewrite (sum_ext _ (fun _ => 0)); [rewrite sum_const; ring|]. intros x I. rewrite (sum_zero _ _ A CX x I). ring. }
  assert (exists y, In y l /\ mx < fst y) as (y0 & J0 & U0).
  { destruct (Classical_Prop.classic (exists x, In x l /\ mx < fst x)) as [H|H]; [exact H|exfalso]. apply SX.
    assert (A : forall x, In x l -> 0 <= - 1 * (fst x - mx)) by (intros x I; destruct (Rlt_dec mx (fst x)); [exfalso; apply H; exists x; split; assumption|lra]).
    assert (CX' : sum (fun p => - 1 * (fst p - mx)) l = 0) by (rewrite sum_scal, CX; ring).
    unfold sxx. rewrite (sum_ext _ (fun _ => 0)); [rewrite sum_const; ring|]. intros x I. pose proof (sum_zero _ _ A CX' x I) as Z. cbv beta in Z. replace (fst x - mx) with 0 by lra. ring. }
  destruct (py_max_R (map snd (filter (fun p => Rltb (fst p) mx) l))) as (c & _ & Ic & Bc).
  { intros E. apply map_eq_nil in E. assert (F : In x0 (filter (fun p => Rltb (fst p) mx) l)) by (apply filter_In; split; [exact I0|apply Rltb_true; exact L0]). rewrite E in F. destruct F. }
  apply in_map_iff in Ic. destruct Ic as (z & Ez & Iz). apply filter_In in Iz. destruct Iz as (Iz & Lz). apply Rltb_true in Lz.
  assert (E : sxy = sum (fun p => (fst p - mx) * (snd p - c)) l).
  { unfold sxy. rewrite (sum_ext _ (fun p => (fst p - mx) * (snd p - c) + (c - my) * (fst p - mx))) by (intros; ring).
    rewrite sum_add, sum_scal, CX. ring. }
  assert (TP : forall p, In p l -> 0 <= (fst p - mx) * (snd p - c)).
  { intros p I. destruct (Rlt_dec (fst p) mx) as [L|L].
    - assert (snd p <= c) by (apply Bc; apply in_map; apply filter_In; split; [exact I|apply Rltb_true; exact L]).
      replace ((fst p - mx) * (snd p - c)) with ((mx - fst p) * (c - snd p)) by ring. apply Rmult_le_pos; lra.
    - apply Rnot_lt_le in L. pose proof (MO z p Iz I ltac:(lra)). apply Rmult_le_pos; lra. }
  rewrite E. pose proof (sum_nonneg _ _ TP) as [P|Z]; [exact P|exfalso]. symmetry in Z.
  pose proof (sum_zero _ _ TP Z y0 J0) as Q. pose proof (MO z y0 Iz J0 ltac:(lra)) as M.
  pose proof (Rmult_lt_0_compat (fst y0 - mx) (snd y0 - c) ltac:(lra) ltac:(lra)). lra.
Qed.
End Positive.
Lemma best_positive t edges ks p : 0 < t -> rising edges -> numbered t edges ks -> differ ks -> best_period edges ks p -> 0 < p.
Proof.
  intros T RI N D (c & B). destruct (sxx_differ edges ks (numbered_length _ _ _ N) D) as (NE & SX). cbv zeta in *  .
  rewrite (fit_unique _ NE SX c p) by (intros a b; rewrite <- !misfit_points; apply B).
  apply Rmult_lt_0_compat.
  - apply sxy_pos; [exact NE|exact SX|].
    assert (IN : forall x, In x (combine (map IZR ks) edges) -> exists k, fst x = IZR k /\ In (k, snd x) (combine ks edges)).
    { clear. revert edges. induction ks as [|k ks IH]; intros [|e edges] x I; try (destruct I; fail). cbn [map combine] in I. destruct I as [<-|I]; [exists k; split; [reflexivity|left; reflexivity]|].
      destruct (IH edges x I) as (k' & E & I'). exists k'. split; [exact E|right; exact I']. }
    intros x y Ix Iy L. destruct (IN x Ix) as (kx & Ex & Jx). destruct (IN y Iy) as (ky & Ey & Jy). rewrite Ex, Ey in L.
    exact (numbered_mono t edges ks T RI N _ _ Jx Jy (lt_IZR _ _ L)).
  - apply Rinv_0_lt_compat. pose proof (sxx_nonneg (combine (map IZR ks) edges)) as P. cbv zeta in P. lra.
Qed.

(** *** The whole recovery *)
Section Run.
Variable sort : list (R * R) -> list (R * R).
Hypothesis SO : sorts sort.
Variable n_comp : Z.
Hypothesis NC : (200000 <= n_comp)%Z.
Definition rate (t0 : R) (edges : list R) : R := mean (map IZR (map (fun d => Int_part (d / t0 + 1 / 2)) (diff edges))).
Definition recovered (compiled fixed : bool) (t0 : R) (edges : list R) : result R :=
  if fixed then Ok t0 else bind (minim sort n_comp compiled 10 edges (t0 * (1 - 1 / 100)) (t0 * (1 + 1 / 100)) 100) (detrend Int_part compiled edges).
Lemma run_eq compiled fixed t0 e0 e1 l rs : t0 <> 0 ->
  run Int_part sort n_comp compiled fixed (Some t0) (e0 :: e1 :: l) rs
  = if Rltb (rate t0 (e0 :: e1 :: l)) (9 / 10) || Rltb 5 (rate t0 (e0 :: e1 :: l)) then Err ArithmeticError
    else bind (recovered compiled fixed t0 (e0 :: e1 :: l)) (fun t => finish t (e0 :: e1 :: l) rs).
Proof.
  intros NZ. unfold run. change (get (e0 :: e1 :: l) 0) with (Ok e0). cbn [bind]. cbv zeta. change (length (e0 :: e1 :: l) <? 2)%nat with false.
  rewrite (mapM_all _ (fun d => Int_part (d / t0 + 1 / 2))).
  2: { intros d _. unfold np_div. cbn [neq nofZ NumR]. rewrite (proj2 (Reqb_false t0 0) NZ). reflexivity. }
  cbn [bind]. fold (rate t0 (e0 :: e1 :: l)).
  change (nofZ 9 /. nofZ 10)%num with (9 / 10). change (nofZ 5) with 5. cbn [nlt NumR]. change (mean (map nofZ (map (fun d => Int_part (d / t0 + 1 / 2)) (diff (e0 :: e1 :: l))))) with (rate t0 (e0 :: e1 :: l)).
  destruct (Rltb (rate t0 (e0 :: e1 :: l)) (9 / 10) || Rltb 5 (rate t0 (e0 :: e1 :: l))); [reflexivity|].
  unfold recovered. destruct fixed; reflexivity.
Qed.
Lemma diff_gaps (l : list R) : diff l = gaps l.
Proof. induction l as [|a l IH]; [reflexivity|]. destruct l as [|b l]; [reflexivity|]. change (diff (a :: b :: l)) with (nsub b a :: diff (b :: l)). rewrite IH. reflexivity. Qed.
Lemma rate_spec t0 edges m : mean_gap t0 edges m <-> m = rate t0 edges.
Proof.
  unfold rate. rewrite mean_eq, diff_gaps, !map_length. split.
  - intros (ks & F & ->).
    assert (E : ks = map (fun d => Int_part (d / t0 + 1 / 2)) (gaps edges)).
    { induction F as [|d k ds ks H F IH]; [reflexivity|]. cbn [map]. rewrite <- IH. f_equal. symmetry. apply floor_unique. lra. }
    rewrite E, map_length. reflexivity.
  - intros ->. exists (map (fun d => Int_part (d / t0 + 1 / 2)) (gaps edges)). split; [|rewrite map_length; reflexivity].
    generalize (gaps edges) as g. induction g as [|d g IH]; cbn [map]; constructor; [|exact IH]. pose proof (floor_spec (d / t0 + 1 / 2)). lra.
Qed.
Lemma recovered_ok compiled fixed t0 e0 l t : 0 < t0 -> rising (e0 :: l) -> recovered compiled fixed t0 (e0 :: l) = Ok t ->
  0 < t /\ (if fixed then t = t0
            else exists guess n ks, 99 / 100 * t0 <= guess <= 101 / 100 * t0 /\ disjoints guess (e0 :: l) n /\ (n < 100)%nat
                   /\ numbered guess (e0 :: l) ks /\ differ ks /\ best_period (e0 :: l) ks t).
Proof.
  intros T RI E. unfold recovered in E. destruct fixed; [injection E as <-; split; [exact T|reflexivity]|].
  assert (A1 : 0 < t0 * (1 - 1 / 100)) by lra. assert (A2 : t0 * (1 - 1 / 100) <= t0 * (1 + 1 / 100)) by lra.
  destruct (minim sort n_comp compiled 10 (e0 :: l) (t0 * (1 - 1 / 100)) (t0 * (1 + 1 / 100)) 100) as [g|e] eqn:M; [|discriminate]. cbn [bind] in E.
  destruct (search_ok sort SO n_comp NC _ _ _ _ _ _ _ _ A1 A2 M) as (R & s & S & L).
  assert (G : 0 < g) by lra.
  assert (HP : 0 < 100) by lra. destruct (score_disjoints _ _ _ _ _ G HP S L) as (n & D & N).
  destruct (detrend_general compiled (e0 :: l) g G ltac:(discriminate)) as (ks & NU & _ & G1 & G2).
  destruct (Classical_Prop.classic (differ ks)) as [DD|DD]; [|rewrite (G2 DD) in E; discriminate].
  destruct (G1 DD) as (p & E' & B). rewrite E in E'. injection E' as <-.
  split; [exact (best_positive g (e0 :: l) ks t G RI NU DD B)|]. exists g, n, ks. split; [lra|]. split; [exact D|]. split; [rewrite INR_IZR_INZ in N; apply lt_IZR in N; lia|]. tauto.
Qed.
Lemma recovered_err compiled fixed t0 e0 e1 l e : 0 < t0 -> recovered compiled fixed t0 (e0 :: e1 :: l) = Err e ->
  e = ArithmeticError \/ (e = UndefinedBehaviour /\ e1 - e0 <= 101 / 200 * t0).
Proof.
  intros T E. unfold recovered in E. destruct fixed; [discriminate|].
  assert (A1 : 0 < t0 * (1 - 1 / 100)) by lra. assert (A2 : t0 * (1 - 1 / 100) <= t0 * (1 + 1 / 100)) by lra.
  destruct (minim sort n_comp compiled 10 (e0 :: e1 :: l) (t0 * (1 - 1 / 100)) (t0 * (1 + 1 / 100)) 100) as [g|e'] eqn:M; cbn [bind] in E.
  - destruct (search_ok sort SO n_comp NC _ _ _ _ _ _ _ _ A1 A2 M) as (R & _). assert (G : 0 < g) by lra.
    destruct (detrend_general compiled (e0 :: e1 :: l) g G ltac:(discriminate)) as (ks & NU & HD & G1 & G2).
    destruct (Classical_Prop.classic (differ ks)) as [DD|DD]; [destruct (G1 DD) as (p & E' & _); congruence|].
    rewrite (G2 DD) in E. injection E as <-. right. split; [reflexivity|].
    destruct ks as [|k0 [|k1 ks]]; try (destruct NU; fail). cbn [hd] in HD. subst k0. destruct NU as (A & _).
    assert (k1 = 0%Z) by (destruct (Z.eq_dec k1 0) as [K|K]; [exact K|exfalso; apply DD; exists k1, 0%Z; split; [right; left; reflexivity|]; split; [left; reflexivity|exact K]]). subst k1.
    change (IZR (0 - 0)) with 0 in A. pose proof (Rle_abs (e1 - e0 - 0 * g)). lra.
  - injection E as ->. destruct (search_err sort SO n_comp NC _ _ _ _ _ _ _ _ A1 A2 M) as [Q|(Q & Q')]; [left; exact Q|right]. split; [exact Q|].
    specialize (Q' e1 l eq_refl). lra.
Qed.

(** *** Ideal data *)
Lemma ideal_rising e0 T ks : 0 < T -> ascending ks -> rising (ideal e0 T ks).
Proof.
  intros TP. induction ks as [|a ks IH]; intros A; [exact I|]. destruct ks as [|b ks]; [exact I|]. destruct A as (L & A).
  split; [|exact (IH A)]. apply IZR_le in L. pose proof (Rmult_le_compat_r T _ _ ltac:(lra) L). lra.
Qed.
Lemma ideal_numbered e0 T t ks : 0 < t -> ks <> [] -> gaps_at_most 24 ks -> 24 * Rabs (T - t) < t / 2 -> clearly_numbered t (ideal e0 T ks) ks.
Proof.
  intros TP NE G C. induction ks as [|a ks IH]; [congruence|]. destruct ks as [|b ks]; [exact I|]. destruct G as (L & G).
  split; [|exact (IH ltac:(discriminate) G)].
  replace (e0 + IZR b * T - (e0 + IZR a * T) - IZR (b - a) * t) with (IZR (b - a) * (T - t)) by (rewrite minus_IZR; ring).
  rewrite Rabs_mult, <- abs_IZR. apply IZR_le in L. pose proof (Rmult_le_compat_r _ _ _ (Rabs_pos (T - t)) L). lra.
Qed.
Lemma ideal_tv e0 T k0 k : 0 < T -> tv (e0 + IZR k0 * T) T (e0 + IZR k * T) = 0.
Proof.
  intros TP. unfold tv. assert (N : nb (e0 + IZR k0 * T) T (e0 + IZR k * T) = (k - k0)%Z).
  { unfold nb. replace ((e0 + IZR k * T - (e0 + IZR k0 * T) + T / 2) / T) with (IZR (k - k0) + 1 / 2) by (rewrite minus_IZR; field; lra). apply floor_unique. lra. }
  rewrite N, minus_IZR. ring.
Qed.
Lemma zero_jumps t (l : list R) : 0 < t -> (forall x, In x l -> x = 0) -> jumps t l = 0%nat.
Proof.
  intros T. induction l as [|a l IH]; intros Z; [reflexivity|]. destruct l as [|b l]; [reflexivity|]. rewrite jumps_cons, (IH (fun x h => Z x (or_intror h))).
  rewrite (Z a (or_introl eq_refl)), (Z b (or_intror (or_introl eq_refl))). replace (0 - 0) with 0 by ring. rewrite Rabs_R0. destruct (Rlt_dec (t / 2) 0); [lra|reflexivity].
Qed.
Lemma last_cons {X} (a b : X) l d : last (a :: b :: l) d = last (b :: l) d.
Proof. reflexivity. Qed.
Lemma ideal_last e0 T ks : ks <> [] -> last (ideal e0 T ks) 0 = e0 + IZR (last ks 0%Z) * T.
Proof.
  intros NE. induction ks as [|a ks IH]; [congruence|]. destruct ks as [|b ks]; [reflexivity|]. unfold ideal in *  . cbn [map] in *  . rewrite !last_cons. exact (IH ltac:(discriminate)).
Qed.
Lemma ideal_finish e0 T ks rs : 0 < T -> ks <> [] -> ascending ks ->
  exists ties, finish T (ideal e0 T ks) rs = Ok (map (fun i => e0 + IZR (hd 0%Z ks) * T + T / 2 + INR i * T) (seq 0 (Z.to_nat (last ks 0 - hd 0 ks)%Z)), ties)
    /\ (forall x, In x ties -> x = 0).
Proof.
  intros TP NE A. destruct ks as [|k0 ks]; [congruence|]. cbn [hd].
  pose proof (ideal_rising e0 T _ TP A) as RI. pose proof (ideal_last e0 T (k0 :: ks) NE) as LA. cbn [ideal map] in RI. cbn [ideal map]. change (map (fun k => e0 + IZR k * T) ks) with (ideal e0 T ks) in *  .
  assert (TZ : forall e, In e (ideal e0 T ks) -> tv (e0 + IZR k0 * T) T e = 0) by (intros e I; apply in_map_iff in I; destruct I as (k & <- & _); apply ideal_tv; exact TP).
  assert (J : jumps T (map (tv (e0 + IZR k0 * T) T) (e0 + IZR k0 * T :: ideal e0 T ks)) = 0%nat).
  { apply zero_jumps; [exact TP|]. intros x I. apply in_map_iff in I. destruct I as (e & <- & [<-|I]); [apply ideal_tv; exact TP|exact (TZ e I)]. }
  destruct (finish_cases T (e0 + IZR k0 * T) (ideal e0 T ks) rs TP RI) as [(J' & _)|(_ & clk & ties & E & C & Q)]; [congruence|].
  destruct (Q TZ) as (Q1 & Q2). exists ties. split; [|exact Q2]. rewrite E. f_equal. f_equal.
  destruct C as (ph & n & nu & er & _ & CL & SP & _). assert (LC : length clk = n) by (rewrite CL, map_length, seq_length; reflexivity).
  rewrite LC in Q1. rewrite Q1. f_equal. f_equal. clear CL LC Q1 Q2 E Q.
  change (last (e0 + IZR k0 * T :: ideal e0 T ks) 0) with (last (ideal e0 T (k0 :: ks)) 0) in SP. rewrite LA in SP. cbn [hd] in SP.
  replace (e0 + IZR (last (k0 :: ks) 0%Z) * T - (e0 + IZR k0 * T)) with (IZR (last (k0 :: ks) 0 - k0)%Z * T) in SP by (rewrite minus_IZR; ring).
  destruct SP as (S1 & S2). apply Rmult_lt_reg_r in S1; [|exact TP]. apply Rmult_le_reg_r in S2; [|exact TP]. rewrite INR_IZR_INZ in S1, S2.
  apply le_IZR in S2. assert (S3 : IZR (Z.of_nat n) < IZR (last (k0 :: ks) 0 - k0 + 1)%Z) by (rewrite plus_IZR; lra). apply lt_IZR in S3. lia.
Qed.
(** The rate of ideal data. *)
Fixpoint zgaps (ks : list Z) : list Z := match ks with a :: ((b :: _) as l) => (b - a)%Z :: zgaps l | _ => [] end.
Lemma zgaps_cons a b l : zgaps (a :: b :: l) = (b - a)%Z :: zgaps (b :: l).
Proof. reflexivity. Qed.
Lemma zgaps_total a l : total (map IZR (zgaps (a :: l))) = IZR (last (a :: l) 0%Z) - IZR a /\ length (zgaps (a :: l)) = length l.
Proof.
  revert a. induction l as [|b l IH]; intros a; [cbn; split; [ring|reflexivity]|]. rewrite zgaps_cons, last_cons. cbn [map length]. destruct (IH b) as (I1 & I2).
  change (total (IZR (b - a) :: map IZR (zgaps (b :: l)))) with (IZR (b - a) + total (map IZR (zgaps (b :: l)))). rewrite I1, I2, minus_IZR. split; [ring|reflexivity].
Qed.
Lemma ideal_rate e0 T t0 k0 k1 ks : 0 < t0 -> gaps_at_most 24 (k0 :: k1 :: ks) -> 48 * Rabs (T - t0) < t0 ->
  rate t0 (ideal e0 T (k0 :: k1 :: ks)) = IZR (last (k0 :: k1 :: ks) 0 - k0)%Z / INR (length (k1 :: ks)).
Proof.
  intros TP G C. unfold rate. rewrite mean_eq, diff_gaps.
  assert (E : map (fun d => Int_part (d / t0 + 1 / 2)) (gaps (ideal e0 T (k0 :: k1 :: ks))) = zgaps (k0 :: k1 :: ks)).
  { revert G. generalize (k0 :: k1 :: ks) as q. induction q as [|a q IH]; intros G; [reflexivity|]. destruct q as [|b q]; [reflexivity|]. destruct G as (L & G).
    rewrite zgaps_cons, <- (IH G). cbn [ideal map]. change (gaps (e0 + IZR a * T :: e0 + IZR b * T :: map (fun k => e0 + IZR k * T) q)) with ((e0 + IZR b * T - (e0 + IZR a * T)) :: gaps (ideal e0 T (b :: q))).
    cbn [map]. f_equal. apply floor_unique.
    replace ((e0 + IZR b * T - (e0 + IZR a * T)) / t0 + 1 / 2) with (IZR (b - a) + (IZR (b - a) * (T - t0) / t0 + 1 / 2)) by (rewrite minus_IZR; field; lra).
    assert (A : Rabs (IZR (b - a) * (T - t0)) < t0 / 2).
    { rewrite Rabs_mult, <- abs_IZR. apply IZR_le in L. pose proof (Rmult_le_compat_r _ _ _ (Rabs_pos (T - t0)) L). lra. }
    apply Rabs_def2 in A. destruct A as (A1 & A2).
    assert (IP : 0 < / t0) by (apply Rinv_0_lt_compat; exact TP).
    assert (B1 : IZR (b - a) * (T - t0) / t0 < 1 / 2). { apply Rmult_lt_reg_r with t0; [exact TP|]. unfold Rdiv at 1. rewrite Rmult_assoc, Rinv_l by lra. lra. }
    assert (B2 : - (1 / 2) < IZR (b - a) * (T - t0) / t0). { apply Rmult_lt_reg_r with t0; [exact TP|]. unfold Rdiv at 2. rewrite Rmult_assoc, Rinv_l by lra. lra. }
    lra. }
  rewrite E. destruct (zgaps_total k0 (k1 :: ks)) as (T1 & T2). rewrite map_length, T1, T2, minus_IZR. reflexivity.
Qed.
End Run.

(** *** Disjoints of ideal data near the true period *)
Definition slip (s : R) (k : Z) : Z := Int_part (IZR k * s + 1 / 2).
Lemma slip_mono s a b : 0 <= s -> (a <= b)%Z -> (slip s a <= slip s b)%Z.
Proof.
  intros S L. unfold slip. apply IZR_le in L. pose proof (Rmult_le_compat_r s _ _ S L).
  pose proof (floor_spec (IZR a * s + 1 / 2)). pose proof (floor_spec (IZR b * s + 1 / 2)).
  assert (Q : IZR (Int_part (IZR a * s + 1 / 2)) < IZR (Int_part (IZR b * s + 1 / 2) + 1)) by (rewrite plus_IZR; lra). apply lt_IZR in Q. lia.
Qed.
Lemma slip_anti s a b : s <= 0 -> (a <= b)%Z -> (slip s b <= slip s a)%Z.
Proof.
  intros S L. unfold slip. apply IZR_le in L. pose proof (Rmult_le_compat_neg_l s _ _ S L).
  pose proof (floor_spec (IZR a * s + 1 / 2)). pose proof (floor_spec (IZR b * s + 1 / 2)).
  assert (Q : IZR (Int_part (IZR b * s + 1 / 2)) < IZR (Int_part (IZR a * s + 1 / 2) + 1)) by (rewrite plus_IZR; lra). apply lt_IZR in Q. lia.
Qed.
Section Near.
Variables e0 T g : R.
Variable k0 : Z.
Hypothesis G : 0 < g.
Let s := T / g - 1.
Lemma near_tv k : tv (e0 + IZR k0 * T) g (e0 + IZR k * T) = IZR (k - k0) * (T - g) - IZR (slip s (k - k0)) * g.
Proof.
  unfold tv. assert (N : nb (e0 + IZR k0 * T) g (e0 + IZR k * T) = (k - k0 + slip s (k - k0))%Z).
  { unfold nb. apply floor_unique. rewrite plus_IZR. pose proof (floor_spec (IZR (k - k0) * s + 1 / 2)) as F. fold (slip s (k - k0)) in F.
    replace ((e0 + IZR k * T - (e0 + IZR k0 * T) + g / 2) / g) with (IZR (k - k0) + (IZR (k - k0) * s + 1 / 2)) by (unfold s; rewrite minus_IZR; field; lra). lra. }
  rewrite N, plus_IZR, minus_IZR. ring.
Qed.
Hypothesis C : 24 * Rabs (T - g) < g / 2.
Lemma near_jump a b : (Z.abs (b - a) <= 24)%Z -> slip s (b - k0) = slip s (a - k0) ->
  Rabs (tv (e0 + IZR k0 * T) g (e0 + IZR b * T) - tv (e0 + IZR k0 * T) g (e0 + IZR a * T)) <= g / 2.
Proof.
  intros L E. rewrite !near_tv, E.
  replace (IZR (b - k0) * (T - g) - IZR (slip s (a - k0)) * g - (IZR (a - k0) * (T - g) - IZR (slip s (a - k0)) * g)) with (IZR (b - a) * (T - g)) by (rewrite !minus_IZR; ring).
  rewrite Rabs_mult, <- abs_IZR. apply IZR_le in L. pose proof (Rmult_le_compat_r _ _ _ (Rabs_pos (T - g)) L). lra.
Qed.
Lemma near_count ks : ks <> [] -> ascending ks -> gaps_at_most 24 ks ->
  (Z.of_nat (jumps g (map (tv (e0 + IZR k0 * T) g) (ideal e0 T ks))) <= Z.abs (slip s (last ks 0 - k0) - slip s (hd 0 ks - k0)))%Z.
Proof.
  assert (S : 0 <= s \/ s <= 0) by lra.
  assert (Q : forall ks, ks <> [] -> ascending ks -> gaps_at_most 24 ks ->
     (0 <= s -> (slip s (hd 0 ks - k0) <= slip s (last ks 0 - k0) /\ Z.of_nat (jumps g (map (tv (e0 + IZR k0 * T) g) (ideal e0 T ks))) <= slip s (last ks 0 - k0) - slip s (hd 0 ks - k0))%Z)
     /\ (s <= 0 -> (slip s (last ks 0 - k0) <= slip s (hd 0 ks - k0) /\ Z.of_nat (jumps g (map (tv (e0 + IZR k0 * T) g) (ideal e0 T ks))) <= slip s (hd 0 ks - k0) - slip s (last ks 0 - k0))%Z)).
  { clear ks. induction ks as [|a ks IH]; intros NE A GA; [congruence|]. destruct ks as [|b ks].
    - cbn [hd last ideal map jumps]. split; intros; lia.
    - destruct A as (L & A). destruct GA as (GL & GA). destruct (IH ltac:(discriminate) A GA) as (I1 & I2). rewrite last_cons. cbn [hd] in *  .
      cbn [ideal map] in *  . rewrite jumps_cons.
      set (J := jumps g _) in *  .
      destruct (Rlt_dec (g / 2) (Rabs (tv (e0 + IZR k0 * T) g (e0 + IZR b * T) - tv (e0 + IZR k0 * T) g (e0 + IZR a * T)))) as [H|H].
      + assert (NS : slip s (b - k0) <> slip s (a - k0)) by (intros E; pose proof (near_jump a b GL E); lra).
        split; intros SG; [pose proof (slip_mono s (a - k0) (b - k0) SG ltac:(lia)); specialize (I1 SG)|pose proof (slip_anti s (a - k0) (b - k0) SG ltac:(lia)); specialize (I2 SG)]; lia.
      + split; intros SG; [pose proof (slip_mono s (a - k0) (b - k0) SG ltac:(lia)); specialize (I1 SG)|pose proof (slip_anti s (a - k0) (b - k0) SG ltac:(lia)); specialize (I2 SG)]; lia. }
  intros NE A GA. destruct (Q ks NE A GA) as (Q1 & Q2). destruct S as [S|S]; [specialize (Q1 S)|specialize (Q2 S)]; lia.
Qed.
End Near.
Lemma slip_zero s : slip s 0 = 0%Z.
Proof. unfold slip. apply floor_unique. lra. Qed.
Lemma slip_bound s k c : Rabs (IZR k * s) <= c -> Rabs (IZR (slip s k)) <= c + 1.
Proof.
  intros H. pose proof (Rle_abs (IZR k * s)). pose proof (Rle_abs (- (IZR k * s))) as H1. rewrite Rabs_Ropp in H1. unfold slip. pose proof (floor_spec (IZR k * s + 1 / 2)). apply Rabs_le. lra.
Qed.
Lemma score_exists_any e0 l e t : 0 < t -> In e l -> t / 2 < e - e0 -> exists s, tie_score Int_part (map (fun e => e - e0) (e0 :: l)) t = Ok s.
Proof.
  intros T IE H. rewrite score_eq by exact T. destruct (jumps t (map (tv e0 t) (e0 :: l))) eqn:J; [|eexists; reflexivity].
  destruct (walk_all e0 t l T) as (F & N). cbv zeta in *  .
  pose proof (detrend_slope false e0 l t T) as D. cbv zeta in D.
  destruct (slope (map fst (points ((0%Z, 0) :: walk e0 t 0 0 l))) (map snd (points ((0%Z, 0) :: walk e0 t 0 0 l)))) as [sl|er] eqn:S; [rewrite D; eexists; reflexivity|exfalso].
  cbn [map] in J. rewrite (tv_first e0 t T) in J. rewrite (walk_quiet e0 t l T 0 J) in S.
  set (w := (0%Z, 0) :: map (fun e => (nb e0 t e, tv e0 t e)) l) in *  .
  assert (PN : points w <> []) by discriminate.
  assert (SX : sum (fun p : R * R => (fst p - sum fst (points w) / INR (length (points w))) * (fst p - sum fst (points w) / INR (length (points w)))) (points w) <> 0).
  { intros SZ. assert (I1 : In (IZR (nb e0 t e), tv e0 t e) (points w)).
    { unfold points, w. cbn [map]. right. rewrite map_map. exact (in_map (fun x => (IZR (nb e0 t x), tv e0 t x)) _ _ IE). }
    assert (I2 : In (0, 0) (points w)) by (left; reflexivity).
    pose proof (sxx_zero (points w) SZ _ _ I1 I2) as Q. cbn [fst] in Q. pose proof (tv_pos e0 t e) as P. pose proof (tv_range e0 t T e). rewrite Q in P. lra. }
  rewrite (slope_eq (points w) PN SX) in S. discriminate.
Qed.

(** Ideal data near the guess is always recovered. *)
Lemma ideal_search sort n_comp compiled k e0 T t0 k0 ks : sorts sort ->
  0 < t0 -> t0 <= 90000 -> 99 / 100 * t0 <= T <= 101 / 100 * t0 -> ascending (k0 :: ks) -> gaps_at_most 24 (k0 :: ks) -> (k0 < last (k0 :: ks) 0)%Z -> (last (k0 :: ks) 0 - k0 <= 90000)%Z ->
  exists p, minim sort n_comp compiled k (ideal e0 T (k0 :: ks)) (t0 * (1 - 1 / 100)) (t0 * (1 + 1 / 100)) 100 = Ok p.
Proof.
  intros SO P PU TR A GA K1 K2.
  set (a := t0 * (1 - 1 / 100)). set (b := t0 * (1 + 1 / 100)).
  assert (AB : a < b) by (unfold a, b; lra).
  set (n := Z.max 20 (n_comp / Z.of_nat (length (ideal e0 T (k0 :: ks))))).
  destruct (grid_near a b n T ltac:(unfold a, b; lra) AB ltac:(unfold n; lia)) as (g & Ig & D).
  assert (GR : a <= g <= b) by (apply (span_c_in a b n); [lra|unfold n; lia|exact Ig]).
  assert (ST : (b - a) / IZR (n - 1) <= 2 / 1900 * t0).
  { assert (N : 19 <= IZR (n - 1)) by (apply (IZR_le 19); unfold n; lia). apply Rmult_le_reg_r with (IZR (n - 1)); [lra|]. unfold Rdiv at 1. rewrite Rmult_assoc, Rinv_l, Rmult_1_r by lra.
    replace (b - a) with (2 / 1900 * t0 * 19) by (unfold a, b; field). apply Rmult_le_compat_l; lra. }
  assert (GP : 0 < g) by (unfold a in GR; lra).
  assert (DT : Rabs (T - g) <= 2 / 1900 * t0) by lra.
  assert (LI : In (e0 + IZR (last (k0 :: ks) 0%Z) * T) (ideal e0 T ks)).
  { destruct ks as [|k1 ks]; [cbn [last] in K1; lia|]. rewrite last_cons. unfold ideal. apply (in_map (fun k => e0 + IZR k * T)).
    clear. revert k1. induction ks as [|k2 ks IH]; intros k1; [left; reflexivity|]. rewrite last_cons. right. apply IH. }
  assert (EX : forall t, a <= t <= b -> exists s, tie_score Int_part (map (fun e => e - (e0 + IZR k0 * T)) (e0 + IZR k0 * T :: ideal e0 T ks)) t = Ok s).
  { intros t Ht. apply score_exists_any with (e0 + IZR (last (k0 :: ks) 0%Z) * T); [unfold a in Ht; lra|exact LI|].
    assert (Q : 1 <= IZR (last (k0 :: ks) 0%Z - k0)) by (apply (IZR_le 1); lia). rewrite minus_IZR in Q.
    assert (TT : 0 <= T) by lra. pose proof (Rmult_le_compat_r T _ _ TT Q). unfold b in Ht. lra. }
  destruct (EX g GR) as (s & S).
  apply (search_first sort SO n_comp compiled k (e0 + IZR k0 * T) (ideal e0 T ks) a b 100 g s EX ltac:(lra) Ig S).
  rewrite score_eq in S by exact GP.
  assert (C24 : 24 * Rabs (T - g) < g / 2) by (unfold a in GR; lra).
  pose proof (near_count e0 T g k0 GP C24 (k0 :: ks) ltac:(discriminate) A GA) as NCN. cbn [hd] in NCN. replace (k0 - k0)%Z with 0%Z in NCN by lia. rewrite slip_zero in NCN.
  change (ideal e0 T (k0 :: ks)) with (e0 + IZR k0 * T :: ideal e0 T ks) in NCN.
  destruct (jumps g (map (tv (e0 + IZR k0 * T) g) (e0 + IZR k0 * T :: ideal e0 T ks))) as [|j].
  - destruct (detrend_numbers false (ideal e0 T (k0 :: ks)) g (k0 :: ks) GP) as (p & E & B).
    { apply ideal_numbered; [exact GP|discriminate|exact GA|exact C24]. }
    { exists k0, (last (k0 :: ks) 0%Z). split; [left; reflexivity|]. split; [|lia].
      clear. revert k0. induction ks as [|k2 ks IH]; intros k1; [left; reflexivity|]. rewrite last_cons. right. apply IH. }
    change (ideal e0 T (k0 :: ks)) with (e0 + IZR k0 * T :: ideal e0 T ks) in E. rewrite E in S. cbn [bind] in S.
    assert (PT : p = T).
    { apply (best_unique (ideal e0 T (k0 :: ks)) (k0 :: ks)); [unfold ideal; rewrite map_length; reflexivity| |exact B|apply ideal_best].
      exists k0, (last (k0 :: ks) 0%Z). split; [left; reflexivity|]. split; [|lia].
      clear. revert k0. induction ks as [|k2 ks IH]; intros k1; [left; reflexivity|]. rewrite last_cons. right. apply IH. }
    apply (f_equal (fun r => match r with Ok v => v | _ => 0 end)) in S. cbn [bind] in S. subst p. lra.
  - apply (f_equal (fun r => match r with Ok v => v | _ => 0 end)) in S. cbn iota beta in S. rewrite <- S. clear S.
    assert (SB : Rabs (T / g - 1) <= 2 / 1881).
    { replace (T / g - 1) with ((T - g) * / g) by (field; lra). rewrite Rabs_mult, (Rabs_right (/ g)) by (left; apply Rinv_0_lt_compat; exact GP).
      apply Rmult_le_reg_r with g; [exact GP|]. rewrite Rmult_assoc, Rinv_l, Rmult_1_r by lra. unfold a in GR. lra. }
    assert (KB : Rabs (IZR (last (k0 :: ks) 0%Z - k0) * (T / g - 1)) <= 90000 * (2 / 1881)).
    { rewrite Rabs_mult, <- abs_IZR. apply Rmult_le_compat; [apply (IZR_le 0); lia|apply Rabs_pos|apply (IZR_le _ 90000); lia|exact SB]. }
    pose proof (slip_bound _ _ _ KB) as SL. apply IZR_le in NCN. rewrite Z.sub_0_r, abs_IZR in NCN. lra.
Qed.
