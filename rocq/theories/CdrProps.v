(** Theorems about clock data recovery. *)
From Coq Require Import ZArith Reals Bool List Lia Lra Permutation Sorted.
Import ListNotations.
From Verif Require Import Base Num RBool StatsModel CdrModel CdrSpec CdrProofs CdrSearchProofs CdrRunProofs.
Local Open Scope R_scope.

(** *** C42: refining the period *)
(** Both versions number the edges by the nearest symbols and return the least
    squares period of the numbered edges. *)
Theorem C42_refine : forall compiled edges t, 0 < t -> edges <> [] ->
  exists numbers, numbered t edges numbers /\ hd 1%Z numbers = 0%Z
    /\ (differ numbers -> exists p, detrend Int_part compiled edges t = Ok p /\ best_period edges numbers p)
    /\ (~ differ numbers -> detrend Int_part compiled edges t = Err UndefinedBehaviour).
Proof. exact detrend_general. Qed.
Print Assumptions C42_refine.
(** Edges with jitter: the period is the least squares period for the true
    symbol numbers, and its error is limited by the jitter. *)
Theorem C42_jitter : forall compiled edges t numbers, 0 < t -> clearly_numbered t edges numbers -> differ numbers ->
  exists p, detrend Int_part compiled edges t = Ok p /\ best_period edges numbers p
    /\ (forall q, best_period edges numbers q -> q = p)
    /\ forall e0 T, (p - T)² * spread numbers <= total (map (fun q => (fst q - (e0 + IZR (snd q) * T))²) (combine edges numbers)).
Proof.
  intros compiled edges t ks T C D. destruct (detrend_numbers compiled edges t ks T C D) as (p & E & B). exists p. split; [exact E|]. split; [exact B|].
  pose proof (clearly_length t edges ks C) as L. split.
  - intros q B'. exact (best_unique edges ks q p L D B' B).
  - intros e0 T'. eapply Rle_trans; [exact (best_near edges ks p e0 T' L D B)|]. right. unfold misfit. f_equal. apply map_ext. intros q. f_equal. ring.
Qed.
Print Assumptions C42_jitter.
(** An ideal clock's period is found exactly. *)
Theorem C42_exact : forall compiled e0 T t numbers, 0 < t -> differ numbers ->
  clearly_numbered t (ideal e0 T numbers) numbers -> detrend Int_part compiled (ideal e0 T numbers) t = Ok T.
Proof.
  intros compiled e0 T t ks TP D C. destruct (C42_jitter compiled _ t ks TP C D) as (p & E & _ & U & _). rewrite E. f_equal. symmetry. apply U. apply ideal_best.
Qed.
Print Assumptions C42_exact.
Theorem C42_same : forall edges t, 0 < t -> edges <> [] -> detrend_ties Int_part edges t = detrend_ties_c Int_part edges t.
Proof.
  intros edges t T NE. destruct edges as [|e0 l]; [congruence|].
  pose proof (detrend_slope false e0 l t T) as A. pose proof (detrend_slope true e0 l t T) as B. cbv zeta in *  . rewrite <- B in A. exact A.
Qed.
Print Assumptions C42_same.
Lemma C42_witness : clearly_numbered 1 (ideal 5 (11 / 10) [0; 1; 3; 6]%Z) [0; 1; 3; 6]%Z /\ differ [0; 1; 3; 6]%Z.
Proof. split; [cbn; repeat split; try (apply Rabs_def1; lra)|exists 0%Z, 1%Z; cbn; repeat split; auto; lia]. Qed.
Example C42_example : detrend Int_part false (ideal 5 (11 / 10) [0; 1; 3; 6]%Z) 1 = Ok (11 / 10).
Proof. apply C42_exact; [lra|apply C42_witness|apply C42_witness]. Qed.

(** *** C43: the search *)
Theorem C43_outcome : forall sort n_comp compiled max_iter edges t_min t_max tol,
  sorts sort -> (200000 <= n_comp)%Z -> 0 < t_min <= t_max -> 0 < tol -> edges <> [] ->
  (exists p n, minimize Int_part sort n_comp compiled max_iter edges t_min t_max tol = Ok p
      /\ t_min <= p <= t_max /\ disjoints p edges n /\ INR n < tol)
  \/ minimize Int_part sort n_comp compiled max_iter edges t_min t_max tol = Err ArithmeticError
  \/ (minimize Int_part sort n_comp compiled max_iter edges t_min t_max tol = Err UndefinedBehaviour
      /\ nth 1 edges (hd 0 edges) - hd 0 edges <= t_max / 2).
Proof.
  intros sort nc compiled k edges a b tol SO NC AB TP NE. destruct edges as [|e0 l]; [congruence|].
  destruct (minimize Int_part sort nc compiled k (e0 :: l) a b tol) as [p|e] eqn:E.
  - left. destruct (search_ok sort SO nc NC _ _ _ _ _ _ _ _ (proj1 AB) (proj2 AB) E) as (R & s & S & L).
    destruct (score_disjoints e0 l p s tol ltac:(lra) TP S L) as (n & D & N). exists p, n. tauto.
  - right. destruct (search_err sort SO nc NC _ _ _ _ _ _ _ _ (proj1 AB) (proj2 AB) E) as [->|(-> & Q)]; [left; reflexivity|right]. split; [reflexivity|].
    destruct l as [|e1 l]; [cbn; lra|]. exact (Q e1 l eq_refl).
Qed.
Print Assumptions C43_outcome.
(** Arguments: a rough period allows 10 % either way, otherwise both limits are
    needed. *)
Theorem C43_arguments : forall sort n_comp compiled edges t_min t_max,
  (forall t, minimize_tie_disjoints Int_part sort n_comp compiled edges (Some t) t_min t_max
     = minimize_tie_disjoints Int_part sort n_comp compiled edges None (Some (t * (9 / 10))) (Some (t * (11 / 10))))
  /\ (t_min = None \/ t_max = None -> minimize_tie_disjoints Int_part sort n_comp compiled edges None t_min t_max = Err ValueError)
  /\ (forall p a b, sorts sort -> (200000 <= n_comp)%Z -> 0 < a <= b -> edges <> [] ->
        minimize_tie_disjoints Int_part sort n_comp compiled edges None (Some a) (Some b) = Ok p -> a <= p <= b /\ disjoints p edges 0).
Proof.
  intros sort nc compiled edges t_min t_max. split; [reflexivity|]. split.
  - intros [->| ->]; [reflexivity|destruct t_min; reflexivity].
  - intros p a b SO NC AB NE E. destruct (C43_outcome sort nc compiled 10 edges a b 1 SO NC AB Rlt_0_1 NE) as [(q & n & E' & R & D & N)|[E'|(E' & _)]];
    unfold minimize_tie_disjoints in E; change (nofZ 1) with 1 in E; rewrite E in E'; try discriminate E'.
    injection E' as <-. split; [exact R|]. rewrite INR_IZR_INZ in N. apply (lt_IZR _ 1) in N. assert (n = 0%nat) by lia. subst n. exact D.
Qed.
Print Assumptions C43_arguments.
(** The disjoints at a period are a definite number. *)
Theorem C43_disjoints_definite : forall t edges, 0 < t -> edges <> [] -> exists! n, disjoints t edges n.
Proof.
  intros t edges T NE. destruct edges as [|e0 l]; [congruence|]. exists (jumps t (map (tv e0 t) (e0 :: l))). split; [exact (disjoints_tv t e0 l T)|].
  intros m D. exact (disjoints_unique t _ _ _ T (disjoints_tv t e0 l T) D).
Qed.
Print Assumptions C43_disjoints_definite.

(** A sort, to show that the hypothesis can be met. *)
Fixpoint insert (x : R * R) (l : list (R * R)) : list (R * R) :=
  match l with
  | [] => [x]
  | y :: l' => if Rle_dec (snd x) (snd y) then x :: y :: l' else y :: insert x l'
  end.
Definition insertion_sort (l : list (R * R)) : list (R * R) := fold_right insert [] l.
Lemma insert_perm x l : Permutation (x :: l) (insert x l).
Proof. induction l as [|y l IH]; cbn [insert]; [reflexivity|]. destruct (Rle_dec (snd x) (snd y)); [reflexivity|]. rewrite perm_swap. constructor. exact IH. Qed.
Lemma insert_sorted x l : StronglySorted (fun a b => snd a <= snd b) l -> StronglySorted (fun a b => snd a <= snd b) (insert x l).
Proof.
  induction 1 as [|y l S IH F]; cbn [insert]; [repeat constructor|]. destruct (Rle_dec (snd x) (snd y)) as [L|L].
  - constructor; [constructor; assumption|]. constructor; [exact L|]. eapply Forall_impl; [|exact F]. cbv beta. intros z Z. lra.
  - constructor; [exact IH|]. rewrite Forall_forall in *  . intros z I. apply (Permutation_in _ (Permutation_sym (insert_perm x l))) in I. destruct I as [<-|I]; [lra|exact (F z I)].
Qed.
Lemma insertion_sorts : sorts insertion_sort.
Proof.
  intros l. unfold insertion_sort. induction l as [|x l (P & S)]; cbn [fold_right]; [split; [reflexivity|constructor]|].
  split; [rewrite <- insert_perm; constructor; exact P|apply insert_sorted; exact S].
Qed.

(** *** C44: the recovered clock *)
Theorem C44_clock : forall sort n_comp compiled fixed t0 edges resampled clk ties,
  sorts sort -> (200000 <= n_comp)%Z -> 0 < t0 -> rising edges ->
  run Int_part sort n_comp compiled fixed (Some t0) edges resampled = Ok (clk, ties) ->
  (2 <= length edges)%nat /\ (exists m, mean_gap t0 edges m /\ 9 / 10 <= m <= 5)
  /\ exists t, 0 < t /\ clock_of edges t resampled clk ties
    /\ (if fixed then t = t0
        else exists guess n numbers, 99 / 100 * t0 <= guess <= 101 / 100 * t0 /\ disjoints guess edges n /\ (n < 100)%nat
               /\ numbered guess edges numbers /\ differ numbers /\ best_period edges numbers t).
Proof.
  intros sort nc compiled fixed t0 edges rs clk ties SO NC T RI E.
  destruct edges as [|e0 [|e1 l]]; [discriminate|discriminate|]. rewrite run_eq in E by lra. split; [cbn; lia|].
  destruct (Rltb (rate t0 (e0 :: e1 :: l)) (9 / 10)) eqn:A; [discriminate|]. destruct (Rltb 5 (rate t0 (e0 :: e1 :: l))) eqn:B; [discriminate|].
  apply Rltb_false in A. apply Rltb_false in B. cbn [orb] in E. split; [exists (rate t0 (e0 :: e1 :: l)); split; [apply rate_spec; reflexivity|lra]|].
  destruct (recovered sort nc compiled fixed t0 (e0 :: e1 :: l)) as [t|] eqn:RC; [|discriminate]. cbn [bind] in E.
  destruct (recovered_ok sort SO nc NC _ _ _ _ _ _ T RI RC) as (TP & Q). exists t. split; [exact TP|]. split; [|exact Q].
  destruct (finish_cases t e0 (e1 :: l) rs TP RI) as [(_ & E')|(_ & c & ti & E' & C & _)]; rewrite E in E'; [discriminate|]. injection E' as <- <-. exact C.
Qed.
Print Assumptions C44_clock.
(** What else can happen. *)
Theorem C44_errors : forall sort n_comp compiled fixed t0 edges resampled e,
  sorts sort -> (200000 <= n_comp)%Z -> 0 < t0 -> rising edges ->
  run Int_part sort n_comp compiled fixed (Some t0) edges resampled = Err e ->
  (edges = [] /\ e = IndexError) \/ (length edges = 1%nat /\ e = ValueError) \/ e = ArithmeticError
  \/ (fixed = false /\ e = UndefinedBehaviour /\ nth 1 edges 0 - hd 0 edges <= 101 / 200 * t0).
Proof.
  intros sort nc compiled fixed t0 edges rs e SO NC T RI E. destruct edges as [|e0 [|e1 l]].
  - left. cbn in E. injection E as <-. split; reflexivity.
  - right. left. cbn in E. injection E as <-. split; reflexivity.
  - right. right. rewrite run_eq in E by lra. destruct (Rltb (rate t0 (e0 :: e1 :: l)) (9 / 10) || Rltb 5 (rate t0 (e0 :: e1 :: l))); [injection E as <-; left; reflexivity|].
    destruct (recovered sort nc compiled fixed t0 (e0 :: e1 :: l)) as [t|] eqn:RC; cbn [bind] in E.
    + destruct (recovered_ok sort SO nc NC _ _ _ _ _ _ T RI RC) as (TP & _).
      destruct (finish_cases t e0 (e1 :: l) rs TP RI) as [(_ & E')|(_ & c & ti & E' & _)]; rewrite E in E'; [injection E' as <-; left; reflexivity|discriminate].
    + injection E as ->. destruct (recovered_err sort SO nc NC _ _ _ _ _ _ _ T RC) as [->|(-> & Q)]; [left; reflexivity|right].
      split; [destruct fixed; [discriminate RC|reflexivity]|]. split; [reflexivity|exact Q].
Qed.
Print Assumptions C44_errors.
Theorem C44_rejects : forall sort n_comp compiled fixed t0 edges resampled m,
  0 < t0 -> (2 <= length edges)%nat -> mean_gap t0 edges m -> m < 9 / 10 \/ 5 < m ->
  run Int_part sort n_comp compiled fixed (Some t0) edges resampled = Err ArithmeticError.
Proof.
  intros sort nc compiled fixed t0 edges rs m T L M O. destruct edges as [|e0 [|e1 l]]; [cbn in L; lia|cbn in L; lia|]. rewrite run_eq by lra. apply rate_spec in M. subst m.
  destruct O as [O|O]; [rewrite (proj2 (Rltb_true _ _) O)|rewrite (proj2 (Rltb_true _ _) O), orb_true_r]; reflexivity.
Qed.
Print Assumptions C44_rejects.
Theorem C44_no_period : forall sort n_comp compiled fixed edges resampled, edges <> [] ->
  run Int_part sort n_comp compiled fixed None edges resampled = Err ValueError.
Proof. intros sort nc compiled fixed edges rs NE. destruct edges as [|e0 [|e1 l]]; [congruence|reflexivity|reflexivity]. Qed.
Print Assumptions C44_no_period.
(** A fixed clock is followed exactly: one clock edge in the middle of each
    symbol, no errors. *)
Theorem C44_fixed_exact : forall sort n_comp compiled e0 t0 numbers resampled,
  0 < t0 -> (2 <= length numbers)%nat -> ascending numbers -> gaps_at_most 24 numbers ->
  9 / 10 <= IZR (last numbers 0 - hd 0 numbers)%Z / (INR (length numbers) - 1) <= 5 ->
  exists ties, run Int_part sort n_comp compiled true (Some t0) (ideal e0 t0 numbers) resampled
      = Ok (map (fun i => e0 + IZR (hd 0%Z numbers) * t0 + t0 / 2 + INR i * t0) (seq 0 (Z.to_nat (last numbers 0 - hd 0 numbers)%Z)), ties)
    /\ forall x, In x ties -> x = 0.
Proof.
  intros sort nc compiled e0 t0 ks rs T L A G M. destruct ks as [|k0 [|k1 ks]]; [cbn in L; lia|cbn in L; lia|].
  assert (RT : rate t0 (ideal e0 t0 (k0 :: k1 :: ks)) = IZR (last (k0 :: k1 :: ks) 0 - k0)%Z / (INR (length (k0 :: k1 :: ks)) - 1)).
  { rewrite ideal_rate by (try exact T; try exact G; replace (t0 - t0) with 0 by ring; rewrite Rabs_R0; lra). f_equal. change (length (k0 :: k1 :: ks)) with (S (length (k1 :: ks))). rewrite S_INR. ring. }
  cbn [hd] in M. rewrite <- RT in M.
  destruct (ideal_finish e0 t0 (k0 :: k1 :: ks) rs T ltac:(discriminate) A) as (ties & E & Z). exists ties. split; [|exact Z]. rewrite <- E.
  change (ideal e0 t0 (k0 :: k1 :: ks)) with (e0 + IZR k0 * t0 :: e0 + IZR k1 * t0 :: ideal e0 t0 ks) in M |- * . rewrite run_eq by lra.
  rewrite (proj2 (Rltb_false _ _)), (proj2 (Rltb_false _ _)) by lra. reflexivity.
Qed.
Print Assumptions C44_fixed_exact.
(** With a guess within 1 % the clock of ideal data is recovered exactly: for
    runs of at most 24 symbols, at most 90000 symbols in all, periods of at
    most 90000 s. *)
Theorem C44_recovers : forall sort n_comp compiled e0 T t0 numbers resampled,
  sorts sort -> (200000 <= n_comp)%Z ->
  0 < t0 <= 90000 -> 99 / 100 * t0 <= T <= 101 / 100 * t0 -> (2 <= length numbers)%nat -> ascending numbers -> gaps_at_most 24 numbers ->
  (last numbers 0 - hd 0 numbers <= 90000)%Z ->
  9 / 10 <= IZR (last numbers 0 - hd 0 numbers)%Z / (INR (length numbers) - 1) <= 5 ->
  exists ties, run Int_part sort n_comp compiled false (Some t0) (ideal e0 T numbers) resampled
      = Ok (map (fun i => e0 + IZR (hd 0%Z numbers) * T + T / 2 + INR i * T) (seq 0 (Z.to_nat (last numbers 0 - hd 0 numbers)%Z)), ties)
    /\ forall x, In x ties -> x = 0.
Proof.
  intros sort nc compiled e0 T t0 ks rs SO NC TP TR L A G K M. destruct ks as [|k0 [|k1 ks]]; [cbn in L; lia|cbn in L; lia|].
  assert (AB : Rabs (T - t0) <= 1 / 100 * t0) by (apply Rabs_le; lra).
  assert (RT : rate t0 (ideal e0 T (k0 :: k1 :: ks)) = IZR (last (k0 :: k1 :: ks) 0 - k0)%Z / (INR (length (k0 :: k1 :: ks)) - 1)).
  { rewrite ideal_rate by (try exact G; lra). f_equal. change (length (k0 :: k1 :: ks)) with (S (length (k1 :: ks))). rewrite S_INR. ring. }
  cbn [hd] in M, K. assert (KL : (k0 < last (k0 :: k1 :: ks) 0)%Z).
  { destruct (Z_lt_ge_dec k0 (last (k0 :: k1 :: ks) 0%Z)) as [H|H]; [exact H|exfalso].
    assert (Q : IZR (last (k0 :: k1 :: ks) 0 - k0)%Z <= 0) by (apply (IZR_le _ 0); lia).
    assert (P : 0 < INR (length (k0 :: k1 :: ks)) - 1). { change (length (k0 :: k1 :: ks)) with (S (S (length ks))). rewrite !S_INR. pose proof (pos_INR (length ks)). lra. }
    destruct M as (M & _). apply Rmult_le_compat_r with (r := INR (length (k0 :: k1 :: ks)) - 1) in M; [|lra]. unfold Rdiv at 2 in M. rewrite Rmult_assoc, Rinv_l in M by lra. lra. }
  rewrite <- RT in M.
  destruct (ideal_search sort nc compiled 10 e0 T t0 k0 (k1 :: ks) SO (proj1 TP) (proj2 TP) TR A G KL K) as (g & S).
  assert (A1 : 0 < t0 * (1 - 1 / 100)) by lra. assert (A2 : t0 * (1 - 1 / 100) <= t0 * (1 + 1 / 100)) by lra.
  change (ideal e0 T (k0 :: k1 :: ks)) with (e0 + IZR k0 * T :: ideal e0 T (k1 :: ks)) in S.
  destruct (search_ok sort SO nc NC _ _ _ _ _ _ _ _ A1 A2 S) as (GR & _).
  assert (GP : 0 < g) by lra.
  assert (DI : differ (k0 :: k1 :: ks)).
  { exists k0, (last (k0 :: k1 :: ks) 0%Z). split; [left; reflexivity|]. split; [|lia]. rewrite last_cons. right. clear. revert k1. induction ks as [|k2 ks IH]; intros k1; [left; reflexivity|]. rewrite last_cons. right. apply IH. }
  assert (CN : clearly_numbered g (ideal e0 T (k0 :: k1 :: ks)) (k0 :: k1 :: ks)).
  { apply ideal_numbered; [exact GP|discriminate|exact G|]. assert (Rabs (T - g) <= 2 / 100 * t0) by (apply Rabs_le; lra). lra. }
  pose proof (C42_exact compiled e0 T g (k0 :: k1 :: ks) GP DI CN) as DE.
  destruct (ideal_finish e0 T (k0 :: k1 :: ks) rs ltac:(lra) ltac:(discriminate) A) as (ties & E & Z). exists ties. split; [|exact Z]. rewrite <- E.
  change (ideal e0 T (k0 :: k1 :: ks)) with (e0 + IZR k0 * T :: e0 + IZR k1 * T :: ideal e0 T ks) in M, DE |- * . rewrite run_eq by lra.
  rewrite (proj2 (Rltb_false _ _)), (proj2 (Rltb_false _ _)) by lra. cbn [orb]. unfold recovered.
  change (ideal e0 T (k1 :: ks)) with (e0 + IZR k1 * T :: ideal e0 T ks) in S. rewrite S. cbn [bind]. rewrite DE. reflexivity.
Qed.
Print Assumptions C44_recovers.
Example C44_example : exists ties,
  run Int_part insertion_sort 1000000 true false (Some (1005 / 1000)) (ideal 7 1 [0; 1; 3; 4; 6; 7]%Z) true
    = Ok (map (fun i => 7 + 0 * 1 + 1 / 2 + INR i * 1) (seq 0 7), ties) /\ forall x, In x ties -> x = 0.
Proof.
  apply (C44_recovers insertion_sort 1000000 true 7 1 (1005 / 1000) [0; 1; 3; 4; 6; 7]%Z true insertion_sorts); try lra; try lia; cbn; try lia; try lra.
Qed.

(** *** C45: the filter *)
Theorem C45_gain : forall freqs bandwidth order, 0 < bandwidth -> (1 <= order)%Z ->
  exists g, high_pass_butter freqs bandwidth order = Ok g /\ length g = length freqs
    /\ (forall i f x, nth_error freqs i = Some f -> nth_error g i = Some x ->
         0 <= x < 1 /\ (f = 0 -> x = 0) /\ (Rabs f = bandwidth -> x = 1 / sqrt 2))
    /\ (forall i j f f' x x', nth_error freqs i = Some f -> nth_error freqs j = Some f' -> nth_error g i = Some x -> nth_error g j = Some x' ->
         (Rabs f <= Rabs f' -> x <= x') /\ (Rabs f < Rabs f' -> x < x')).
Proof.
  intros freqs bw order BW OR. unfold high_pass_butter. cbn [neq nofZ NumR]. rewrite (proj2 (Reqb_false bw 0)) by lra.
  set (gain := fun f => if Reqb f 0 then 0 else 1 / sqrt (1 + powerRZ (f / bw) (-2 * order))).
  exists (map gain freqs). split; [reflexivity|]. split; [apply map_length|].
  set (m := (2 * Z.to_nat order)%nat).
  assert (PW : forall f, f <> 0 -> powerRZ (f / bw) (-2 * order) = / (Rabs f / bw) ^ m).
  { intros f NZ. replace (-2 * order)%Z with (- (Z.of_nat m))%Z by (unfold m; lia).
    rewrite powerRZ_neg'. f_equal. rewrite <- pow_powerRZ. unfold m. rewrite !pow_mult. f_equal.
    replace (Rabs f / bw) with (Rabs (f / bw)); [rewrite RPow_abs; symmetry; apply Rabs_right; apply Rle_ge; apply pow2_ge_0|].
    unfold Rdiv. rewrite Rabs_mult, (Rabs_right (/ bw)); [reflexivity|]. apply Rle_ge. left. apply Rinv_0_lt_compat. lra. }
  assert (AP : forall f, f <> 0 -> 0 < Rabs f / bw) by (intros f NZ; apply Rmult_lt_0_compat; [apply Rabs_pos_lt; exact NZ|apply Rinv_0_lt_compat; lra]).
  assert (XP : forall f, f <> 0 -> 0 < / (Rabs f / bw) ^ m) by (intros f NZ; apply Rinv_0_lt_compat, pow_lt, AP; exact NZ).
  assert (GV : forall f, f <> 0 -> gain f = / sqrt (1 + / (Rabs f / bw) ^ m)).
  { intros f NZ. unfold gain. rewrite (proj2 (Reqb_false f 0) NZ), (PW f NZ). unfold Rdiv. ring. }
  assert (SG : forall f, f <> 0 -> 1 < sqrt (1 + / (Rabs f / bw) ^ m)).
  { intros f NZ. rewrite <- sqrt_1 at 1. apply sqrt_lt_1; pose proof (XP f NZ); lra. }
  assert (G0 : gain 0 = 0) by (unfold gain; rewrite (proj2 (Reqb_true 0 0) eq_refl); reflexivity).
  assert (GP : forall f, f <> 0 -> 0 < gain f < 1).
  { intros f NZ. rewrite (GV f NZ). pose proof (SG f NZ). split; [apply Rinv_0_lt_compat; lra|]. assert (Q : / sqrt (1 + / (Rabs f / bw) ^ m) < / 1) by (apply Rinv_1_lt_contravar; lra). rewrite Rinv_1 in Q. exact Q. }
  assert (MO : forall f f', Rabs f < Rabs f' -> gain f < gain f').
  { intros f f' L. assert (NZ' : f' <> 0) by (intros ->; rewrite Rabs_R0 in L; pose proof (Rabs_pos f); lra).
    destruct (Req_dec f 0) as [->|NZ]; [rewrite G0; apply (GP f' NZ')|]. rewrite (GV f NZ), (GV f' NZ').
    pose proof (SG f NZ). pose proof (SG f' NZ'). apply Rinv_lt_contravar; [apply Rmult_lt_0_compat; lra|]. pose proof (XP f NZ). pose proof (XP f' NZ').
    apply sqrt_lt_1; try lra. apply Rplus_lt_compat_l. apply Rinv_lt_contravar; [apply Rmult_lt_0_compat; apply pow_lt, AP; assumption|].
    assert (PL : forall n a b, 0 < a -> a < b -> a ^ S n < b ^ S n).
    { clear. induction n as [|n IH]; intros a b A B; [lra|]. specialize (IH a b A B). change (a * a ^ S n < b * b ^ S n). apply Rmult_gt_0_lt_compat; try lra. apply pow_lt. lra. }
    assert (exists k, m = S k) as (k & ->) by (exists (m - 1)%nat; unfold m; lia). apply PL; [apply AP; exact NZ|]. apply Rmult_lt_compat_r; [apply Rinv_0_lt_compat; lra|exact L]. }
  split.
  - intros i f x F X. rewrite (map_nth_error _ _ _ F) in X. injection X as <-. destruct (Req_dec f 0) as [->|NZ].
    + rewrite G0. split; [lra|]. split; [reflexivity|]. rewrite Rabs_R0. lra.
    + pose proof (GP f NZ). split; [lra|]. split; [congruence|]. intros AB. rewrite (GV f NZ), AB. replace (bw / bw) with 1 by (field; lra). rewrite pow1, Rinv_1. replace (1 + 1) with 2 by ring. unfold Rdiv. ring.
  - intros i j f f' x x' F F' X X'. rewrite (map_nth_error _ _ _ F) in X. rewrite (map_nth_error _ _ _ F') in X'. injection X as <-. injection X' as <-. split; [|apply MO].
    intros [L|E]; [left; apply MO; exact L|right]. destruct (Req_dec f 0) as [->|NZ].
    + rewrite Rabs_R0 in E. destruct (Req_dec f' 0) as [->|NZ']; [reflexivity|]. pose proof (Rabs_pos_lt f' NZ'). lra.
    + assert (NZ' : f' <> 0) by (intros ->; rewrite Rabs_R0 in E; pose proof (Rabs_pos_lt f NZ); lra). rewrite (GV f NZ), (GV f' NZ'), E. reflexivity.
Qed.
Print Assumptions C45_gain.

Lemma run_lengths sort n_comp compiled t0 edges clk ties : 0 < t0 -> 
  run Int_part sort n_comp compiled false (Some t0) edges true = Ok (clk, ties) -> length ties = length clk.
Proof.
  intros T E. destruct edges as [|e0 [|e1 l]]; [discriminate|discriminate|]. rewrite run_eq in E by lra.
  destruct (Rltb (rate t0 (e0 :: e1 :: l)) (9 / 10) || Rltb 5 (rate t0 (e0 :: e1 :: l))); [discriminate|].
  destruct (recovered sort n_comp compiled false t0 (e0 :: e1 :: l)) as [t|]; [|discriminate]. cbn [bind] in E. unfold finish in E. change (get (e0 :: e1 :: l) 0) with (Ok e0) in E. cbn [bind] in E. cbv zeta in E.
  match type of E with bind ?m _ = _ => destruct m; [|discriminate E] end. cbn [bind] in E.
  match type of E with (if ?c then _ else _) = _ => destruct c; [discriminate E|] end.
  match type of E with bind ?m _ = _ => destruct m; [|discriminate E] end. cbn [bind] in E.
  match type of E with (if ?c then _ else _) = _ => destruct c; [discriminate E|] end.
  unfold resample in E. match type of E with bind (if ?c then _ else _) _ = _ => destruct c; [|discriminate E] end. cbn [bind] in E. injection E as <- <-. rewrite !map_length. reflexivity.
Qed.
Lemma trim_middle (l : list R) : trim l = middle l.
Proof.
  unfold trim, middle. rewrite skipn_firstn_comm. f_equal. lia.
Qed.
Lemma even_part_eq n : (n / 2 * 2)%nat = even_part n.
Proof.
  unfold even_part. destruct (Nat.even n) eqn:E.
  - apply Nat.even_spec in E. destruct E as (k & ->). replace (2 * k / 2)%nat with k; [lia|]. apply (Nat.div_unique _ 2 k 0); lia.
  - assert (O : Nat.odd n = true) by (unfold Nat.odd; rewrite E; reflexivity). apply Nat.odd_spec in O. destruct O as (k & ->).
    replace ((2 * k + 1) / 2)%nat with k; [lia|]. apply (Nat.div_unique _ 2 k 1); lia.
Qed.
Lemma next_upcoming points last_ x : upcoming points last_ x (next points last_ x).
Proof.
  induction points as [|p l IH]; cbn [next]; [left; split; [reflexivity|intros p []]|]. cbn [nle NumR]. destruct (Rleb x (fst p)) eqn:E; [apply Rleb_true in E | apply Rleb_false in E].
  - right. exists [], p, l. split; [reflexivity|]. split; [reflexivity|]. split; [exact E|intros q []].
  - destruct IH as [(V & B)|(a & q & b & El & V & L & B)].
    + left. split; [exact V|]. intros q [<-|I]; [exact E|exact (B q I)].
    + right. exists (p :: a), q, b. split; [rewrite El; reflexivity|]. split; [exact V|]. split; [exact L|]. intros r [<-|I]; [exact E|exact (B r I)].
Qed.
Lemma filtered_shape sort n_comp ojtf filtered compiled t0 edges rs clk ties : 0 < t0 ->
  run_filtered Int_part sort n_comp ojtf filtered compiled (Some t0) edges rs = Ok (clk, ties) ->
  exists clk0 ties0 freqs g, run Int_part sort n_comp compiled false (Some t0) edges true = Ok (clk0, ties0) /\ length ties0 = length clk0
    /\ ojtf freqs = Ok g
    /\ let n := even_part (length clk0) in let c := firstn n clk0 in let ti := firstn n ties0 in
       let adj := filtered ti (map (fun x => 1 - Rabs x) g) in
       length adj = n /\ clk = middle (map (fun p => fst p + snd p) (combine c adj))
       /\ (if rs then ties = middle (map (fun p => fst p - snd p) (combine ti adj))
           else ties = map (next (combine (map (fun p => fst p + snd p) (combine c adj)) (map (fun p => fst p - snd p) (combine ti adj))) (last (map (fun p => fst p - snd p) (combine ti adj)) 0)) edges).
Proof.
  intros T E. unfold run_filtered in E. destruct (run Int_part sort n_comp compiled false (Some t0) edges true) as [[clk0 ties0]|] eqn:R; [|discriminate]. cbn [bind] in E.
  match type of E with bind ?m _ = _ => destruct m; [|discriminate E] end. cbn [bind] in E.
  match type of E with bind ?m _ = _ => destruct m; [|discriminate E] end. cbn [bind] in E.
  match type of E with bind ?m _ = _ => destruct m; [|discriminate E] end. cbn [bind] in E. rewrite even_part_eq in E. cbv zeta in E.
  match type of E with (if ?c then _ else _) = _ => destruct c; [discriminate E|] end.
  match type of E with bind ?m _ = _ => destruct m as [freqs|]; [|discriminate E] end. cbn [bind] in E.
  destruct (ojtf freqs) as [g|] eqn:G; [|discriminate E]. cbn [bind] in E.
  assert (W : map (fun x => nsub (nofZ 1) (nabs x)) g = map (fun x => 1 - Rabs x) g) by (apply map_ext; intros x; rewrite nabs_R; reflexivity). rewrite W in E.
  exists clk0, ties0, freqs, g. split; [reflexivity|]. split; [exact (run_lengths _ _ _ _ _ _ _ T R)|]. split; [exact G|]. cbv zeta.
  set (n := even_part (length clk0)) in *  . set (adj := filtered (firstn n ties0) (map (fun x => 1 - Rabs x) g)) in *  .
  destruct (Nat.eqb_spec (length adj) n) as [L|L]; [|discriminate E]. cbn [negb] in E. split; [exact L|].
  destruct rs.
  - injection E as <- <-. rewrite !trim_middle. split; reflexivity.
  - unfold resample in E. match type of E with bind (if ?c then _ else _) _ = _ => destruct c; [|discriminate E] end. cbn [bind] in E. injection E as <- <-. rewrite trim_middle. split; reflexivity.
Qed.
Lemma even_part_le n : (even_part n <= n)%nat.
Proof. unfold even_part. destruct (Nat.even n); lia. Qed.
(** Filtering moves jitter between the clock and the errors: clock edge plus
    error stays. *)
Theorem C45_preserved : forall sort n_comp ojtf filtered compiled t0 edges resampled clk ties, 0 < t0 ->
  run_filtered Int_part sort n_comp ojtf filtered compiled (Some t0) edges resampled = Ok (clk, ties) ->
  exists clk0 ties0 all_clk all_ties,
    run Int_part sort n_comp compiled false (Some t0) edges true = Ok (clk0, ties0)
    /\ length all_clk = even_part (length clk0) /\ length all_ties = even_part (length clk0)
    /\ plus all_clk all_ties = firstn (even_part (length clk0)) (plus clk0 ties0)
    /\ clk = middle all_clk
    /\ (if resampled then ties = middle all_ties else Forall2 (upcoming (combine all_clk all_ties) (last all_ties 0)) edges ties).
Proof.
  intros sort nc ojtf filtered compiled t0 edges rs clk ties T E. destruct (filtered_shape _ _ _ _ _ _ _ _ _ _ T E) as (clk0 & ties0 & freqs & g & R & L & _ & S). cbv zeta in S.
  destruct S as (LA & EC & ET). set (n := even_part (length clk0)) in *  . pose proof (even_part_le (length clk0)) as LE. fold n in LE.
  set (adj := filtered (firstn n ties0) (map (fun x => 1 - Rabs x) g)) in *  .
  assert (L1 : length (firstn n clk0) = n) by (apply firstn_length_le; exact LE). assert (L2 : length (firstn n ties0) = n) by (apply firstn_length_le; lia).
  exists clk0, ties0, (map (fun p => fst p + snd p) (combine (firstn n clk0) adj)), (map (fun p => fst p - snd p) (combine (firstn n ties0) adj)).
  split; [exact R|]. split; [rewrite map_length, combine_length; lia|]. split; [rewrite map_length, combine_length; lia|]. split; [|split; [exact EC|]].
  - fold n. unfold plus. rewrite firstn_map, combine_firstn. clearbody adj. clearbody n. revert L1 L2 LA. generalize (firstn n clk0) as a, (firstn n ties0) as b, adj as d. clear. intros a b d L1 L2 LA.
    revert n b d L1 L2 LA. induction a as [|x a IH]; intros n b d L1 L2 LA; [reflexivity|]. destruct b as [|y b]; [cbn in *   ; lia|]. destruct d as [|z d]; [cbn in *  ; lia|].
    cbn [combine map fst snd]. f_equal; [ring|]. cbn [length] in *  . apply (IH (pred n) b d); lia.
  - destruct rs; [exact ET|]. rewrite ET. clear. induction edges as [|e edges IH]; cbn [map]; constructor; [apply next_upcoming|exact IH].
Qed.
Print Assumptions C45_preserved.
(** Gain one leaves the clock as it is; gain zero moves all errors into it. *)
Theorem C45_extremes : forall sort n_comp ojtf filtered compiled t0 edges clk ties, 0 < t0 ->
  (forall l w, w <> [] -> Forall (eq 0) w -> filtered l w = repeat 0 (length l)) ->
  (forall l w, w <> [] -> Forall (eq 1) w -> filtered l w = l) ->
  run_filtered Int_part sort n_comp ojtf filtered compiled (Some t0) edges true = Ok (clk, ties) ->
  exists clk0 ties0, run Int_part sort n_comp compiled false (Some t0) edges true = Ok (clk0, ties0)
    /\ ((forall freqs g, ojtf freqs = Ok g -> g <> [] /\ Forall (fun x => Rabs x = 1) g) ->
         clk = middle (firstn (even_part (length clk0)) clk0) /\ ties = middle (firstn (even_part (length clk0)) ties0))
    /\ ((forall freqs g, ojtf freqs = Ok g -> g <> [] /\ Forall (eq 0) g) ->
         clk = middle (firstn (even_part (length clk0)) (plus clk0 ties0)) /\ Forall (eq 0) ties).
Proof.
  intros sort nc ojtf filtered compiled t0 edges clk ties T H0 H1 E. destruct (filtered_shape _ _ _ _ _ _ _ _ _ _ T E) as (clk0 & ties0 & freqs & g & RN & L & G & S). cbv zeta in S.
  destruct S as (LA & EC & ET). exists clk0, ties0. split; [exact RN|]. set (n := even_part (length clk0)) in *  . pose proof (even_part_le (length clk0)) as LE. fold n in LE.
  assert (L1 : length (firstn n clk0) = n) by (apply firstn_length_le; exact LE). assert (L2 : length (firstn n ties0) = n) by (apply firstn_length_le; lia).
  split; intros O; destruct (O freqs g G) as (NG & O'); clear O; rename O' into O; fold n; assert (NW : map (fun x => 1 - Rabs x) g <> []) by (destruct g; [destruct (NG eq_refl)|discriminate]).
  - rewrite (H0 _ _ NW) in EC, ET. 2, 3: clear -O; induction O as [|x g Q O IH]; cbn [map]; constructor; [rewrite Q; ring|exact IH].
    rewrite EC, ET. rewrite L2. split; f_equal.
    + clear EC ET. clearbody n. revert L1. generalize (firstn n clk0) as a. clear. intros a. revert n. induction a as [|x a IH]; intros n L1; [reflexivity|]. destruct n as [|n]; [discriminate L1|]. cbn [repeat combine map fst snd]. rewrite IH by (cbn in L1; lia). f_equal. ring.
    + clear EC ET. clearbody n. revert L2. generalize (firstn n ties0) as a. clear. intros a. revert n. induction a as [|x a IH]; intros n L1; [reflexivity|]. destruct n as [|n]; [discriminate L1|]. cbn [repeat combine map fst snd]. rewrite IH by (cbn in L1; lia). f_equal. ring.
  - rewrite (H1 _ _ NW) in EC, ET. 2, 3: clear -O; induction O as [|x g Q O IH]; cbn [map]; constructor; [rewrite <- Q, Rabs_R0; ring|exact IH].
    split; [rewrite EC; f_equal; unfold plus; rewrite firstn_map, combine_firstn; reflexivity|].
    rewrite ET. unfold middle. apply Forall_forall. intros x I.
    assert (FI : forall (k : nat) (l : list R), In x (firstn k l) -> In x l) by (intros k l J; rewrite <- (firstn_skipn k l); apply in_app_iff; left; exact J).
    assert (SI : forall (k : nat) (l : list R), In x (skipn k l) -> In x l) by (intros k l J; rewrite <- (firstn_skipn k l); apply in_app_iff; right; exact J).
    apply FI, SI in I. clear EC ET. clearbody n. revert I. generalize (firstn n ties0) as a. clear. induction a as [|y a IH]; [intros []|]. cbn [combine map fst snd]. intros [<-|I]; [ring|exact (IH I)].
Qed.
Print Assumptions C45_extremes.

(** A non-trivial case: an alternating pattern of 303 edges, a filter scaling all
    errors alike. *)
Definition alternating : list Z := map Z.of_nat (seq 0 303).
Definition scaling (l w : list R) : list R := map (fun x => hd 0 w * x) l.
Lemma scaling_zero l w : w <> [] -> Forall (eq 0) w -> scaling l w = repeat 0 (length l).
Proof.
  intros N F. destruct w as [|x w]; [destruct (N eq_refl)|]. inversion F; subst. unfold scaling. cbn [hd]. clear. induction l as [|y l IH]; [reflexivity|]. cbn [map length repeat]. rewrite IH. f_equal. ring.
Qed.
Lemma consecutive n : forall k, ascending (map Z.of_nat (seq k n)) /\ gaps_at_most 24 (map Z.of_nat (seq k n)).
Proof.
  induction n as [|n IH]; intros k; [split; exact I|]. destruct (IH (S k)) as (A & G). destruct n as [|n]; [split; exact I|]. cbn [seq map ascending gaps_at_most] in *  . split; (split; [lia|assumption]).
Qed.
Lemma scaling_one l w : w <> [] -> Forall (eq 1) w -> scaling l w = l.
Proof.
  intros N F. destruct w as [|x w]; [destruct (N eq_refl)|]. inversion F; subst. unfold scaling. cbn [hd]. clear. induction l as [|y l IH]; [reflexivity|]. cbn [map]. rewrite IH. f_equal. ring.
Qed.
Example C45_example : exists clk ties,
  run_filtered Int_part insertion_sort 1000000 (fun f => high_pass_butter f (1 / 10) 2) scaling true (Some (1005 / 1000)) (ideal 7 1 alternating) true = Ok (clk, ties)
  /\ length clk = 102%nat.
Proof.
  destruct (C44_recovers insertion_sort 1000000 true 7 1 (1005 / 1000) alternating true insertion_sorts) as (ties & E & Z0).
  - lia.
  - lra.
  - lra.
  - unfold alternating. rewrite map_length, seq_length. lia.
  - apply consecutive.
  - apply consecutive.
  - vm_compute. discriminate.
  - change (last alternating 0 - hd 0 alternating)%Z with 302%Z. change (length alternating) with 303%nat. rewrite INR_IZR_INZ. change (Z.of_nat 303) with 303%Z. replace (302 / (303 - 1)) with 1 by field. lra.
  - change (Z.to_nat (last alternating 0 - hd 0 alternating)%Z) with 302%nat in E. set (clk0 := map (fun i : nat => 7 + IZR (hd 0%Z alternating) * 1 + 1 / 2 + INR i * 1) (seq 0 302)) in *  .
    assert (GP : 0 < 1005 / 1000) by lra. pose proof (run_lengths _ _ _ _ _ _ _ GP E) as LT.
    assert (LC : length clk0 = 302%nat) by (unfold clk0; rewrite map_length, seq_length; reflexivity).
    unfold run_filtered. rewrite E. cbn [bind]. 
    assert (RV : rev clk0 = (7 + IZR (hd 0%Z alternating) * 1 + 1 / 2 + INR 301 * 1) :: rev (map (fun i : nat => 7 + IZR (hd 0%Z alternating) * 1 + 1 / 2 + INR i * 1) (seq 0 301))).
    { unfold clk0. replace (seq 0 302) with (seq 0 301 ++ [301%nat]) by reflexivity. rewrite map_app, rev_app_distr. reflexivity. }
    rewrite RV. cbn [bind]. change (get clk0 0) with (@Ok RbaseSymbolsImpl.R (7 + IZR (hd 0%Z alternating) * 1 + 1 / 2 + INR 0 * 1)). cbn [bind]. rewrite LC. unfold np_div. cbn [neq nofZ NumR nsub ndiv].
    rewrite (proj2 (Reqb_false (IZR (Z.of_nat 302 - 1)) 0)) by (change (Z.of_nat 302 - 1)%Z with 301%Z; lra). cbn [bind]. change (302 / 2 * 2)%nat with 302%nat. cbv zeta. change (302 =? 0)%nat with false. cbv iota.
    unfold rfftfreq. rewrite (mapM_all _ (fun i => IZR (Z.of_nat i) / (IZR (Z.of_nat 302) * ((7 + IZR (hd 0%Z alternating) * 1 + 1 / 2 + INR 301 * 1 - (7 + IZR (hd 0%Z alternating) * 1 + 1 / 2 + INR 0 * 1)) / IZR (Z.of_nat 302 - 1))))).
    2:{ intros i I. unfold np_div. cbn [neq nofZ NumR nmul ndiv]. rewrite (proj2 (Reqb_false _ 0)); [reflexivity|]. change (Z.of_nat 302 - 1)%Z with 301%Z. change (Z.of_nat 302) with 302%Z. rewrite !INR_IZR_INZ. change (Z.of_nat 301) with 301%Z. change (Z.of_nat 0) with 0%Z. lra. }
    cbn [bind]. unfold high_pass_butter. cbn [neq nofZ NumR]. rewrite (proj2 (Reqb_false (1 / 10) 0)) by lra. cbn [bind].
    unfold scaling at 1. rewrite map_length, firstn_length_le by (rewrite LT, LC; lia). rewrite Nat.eqb_refl. cbn [negb]. eexists. eexists. split; [reflexivity|].
    rewrite trim_middle. unfold middle. rewrite firstn_length, skipn_length, map_length, combine_length. unfold scaling. rewrite map_length, !firstn_length, LT, LC. reflexivity.
Qed.
