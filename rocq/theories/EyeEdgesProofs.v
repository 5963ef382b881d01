(** Edges of clean data: one for each change. *)
From Coq Require Import ZArith Reals Bool List Lia Lra Sorted Permutation Classical.
Import ListNotations.
From Verif Require Import Base Num RBool LinesModel LinesSpec LinesProps EyeRunModel EyeLevelsProps EyeDataSpec EyeEdgesSpec.
From Verif Require StatsModel EyeRProofs.
Local Open Scope R_scope.

Lemma Rabs_between a b : Rabs a <= b <-> - b <= a <= b.
Proof. split; [intros H; unfold Rabs in H; destruct (Rcase_abs a); lra|intros H; apply Rabs_le; lra]. Qed.
Lemma straddle_between (y : list R) v : forall m a ya yi, nth_error y a = Some ya -> nth_error y (a + m) = Some yi -> (ya <= v < yi \/ yi <= v < ya) -> exists q, (a < q <= a + m)%nat /\ straddles y v q.
Proof.
  induction m as [|m IH]; intros a ya yi A B C; [rewrite Nat.add_0_r in B; assert (ya = yi) by congruence; subst; lra|].
  destruct (nth_error y (a + 1)) as [z|] eqn:Z.
  2: { apply nth_error_None in Z. assert (a + S m < length y)%nat by (apply nth_error_Some; congruence). lia. }
  assert (D : (ya <= v < z \/ z <= v < ya) \/ (z <= v < yi \/ yi <= v < z)) by lra. destruct D as [D|D].
  - exists (a + 1)%nat. split; [lia|]. split; [lia|]. exists ya, z. replace (a + 1 - 1)%nat with a by lia. repeat split; assumption.
  - destruct (IH (a + 1)%nat z yi Z ltac:(replace (a + 1 + m)%nat with (a + S m)%nat by lia; exact B) D) as (q & Q & S). exists q. split; [lia|exact S].
Qed.
Lemma least (P : nat -> Prop) a b : (forall j, P j \/ ~ P j) -> (a < b)%nat -> P b -> exists i, (a < i <= b)%nat /\ P i /\ forall j, (a < j < i)%nat -> ~ P j.
Proof.
  intros D. revert a. assert (G : forall m a, (b - a <= m)%nat -> (a < b)%nat -> P b -> exists i, (a < i <= b)%nat /\ P i /\ forall j, (a < j < i)%nat -> ~ P j).
  { induction m as [|m IH]; intros a L A B; [lia|]. destruct (D (S a)) as [Q|Q]; [exists (S a); split; [lia|split; [exact Q|lia]]|].
    destruct (Nat.eq_dec (S a) b) as [E|N]; [subst; contradiction|]. destruct (IH (S a) ltac:(lia) ltac:(lia) B) as (i & I & PI & M). exists i. split; [lia|]. split; [exact PI|]. intros j J. destruct (Nat.eq_dec j (S a)) as [->|N']; [exact Q|]. apply M. lia. }
  intros a A B. exact (G (b - a)%nat a ltac:(lia) A B).
Qed.

Lemma other (a b : bool) : a <> b -> a = negb b.
Proof. destruct a, b; cbn; congruence. Qed.

Section Edges.
Variable l : levels.
Hypothesis ORD : ordered l.
Let rise := l_rising l.
Let fall := l_falling l.
Variables period near td first : R.
Variable y : list R.
Variable s : signal.
Variables n0 n1 : Z.
Hypothesis TD : 0 < td.
Hypothesis PP : 0 < period.
Hypothesis NP : near <= period / 2.
Hypothesis DN : td <= 2 * near.
Hypothesis CL : clean rise fall period near td first y s.
Hypothesis SP : spans period near td first y s n0 n1.

Let time (j : nat) := first + INR j * td.
Let mid (n : Z) := middle period s n.
Let covered n j := Rabs (time j - mid n) <= near.
Let between n j := mid (n - 1) + near < time j < mid n - near.
Let far d v := beyond rise fall d v.
Let before (d : bool) i := if d then low_at y rise fall i else ~ low_at y rise fall i.
Let event (d : bool) i := if d then rising_at y rise fall i else falling_at y rise fall i.
Let away d j := exists v, nth_error y j = Some v /\ far d v.

Lemma fr : fall <= rise.
Proof. destruct ORD. unfold fall, rise. lra. Qed.
Lemma not_both d v : far d v -> far (negb d) v -> False.
Proof. pose proof fr. unfold far, beyond. destruct d; cbn; lra. Qed.
Lemma away_not_both d j : away d j -> away (negb d) j -> False.
Proof. intros (v & V & F) (v' & V' & F'). assert (v' = v) by congruence. subst. exact (not_both d v F F'). Qed.
Lemma event_before d i : event d i <-> (1 <= i)%nat /\ before d (i - 1) /\ away d i.
Proof.
  unfold event, before, away, far, beyond. destruct d; unfold rising_at, falling_at, sample; cbn [nlt NumR]; split; intros (A & B & v & V & F); (split; [exact A|]; split; [exact B|]; exists v; split; [exact V|]); apply Rltb_true; exact F.
Qed.
Lemma before_not d i : before d i -> before (negb d) i -> False.
Proof. unfold before. destruct d; cbn; tauto. Qed.
Lemma keep d a i : before d a -> (a <= i)%nat -> (forall j, (a < j <= i)%nat -> ~ away d j) -> before d i.
Proof.
  unfold before, away, far, beyond. destruct d.
  - intros (j & v & J & V & F & K) A N. exists j, v. split; [lia|]. split; [exact V|]. split; [exact F|]. intros k b KB B. destruct (Nat.le_gt_cases k a) as [L|G]; [apply (K k b); [lia|exact B]|].
    cbn [nlt NumR]. apply Rltb_false. apply Rnot_lt_le. intros Q. apply (N k ltac:(lia)). exists b. split; [exact B|exact Q].
  - intros NL A N (j & v & J & V & F & K). cbn [nlt NumR] in F. apply Rltb_true in F. destruct (Nat.le_gt_cases j a) as [L|G].
    + apply NL. exists j, v. split; [exact L|]. split; [exact V|]. split; [apply Rltb_true; exact F|]. intros k b KB. apply K. lia.
    + apply (N j ltac:(lia)). exists v. split; [exact V|exact F].
Qed.
Lemma turn d k i : away d k -> (k <= i)%nat -> (forall j, (k < j <= i)%nat -> ~ away (negb d) j) -> ~ before d i.
Proof.
  unfold before, away, far, beyond. pose proof fr as FR. destruct d; cbn [negb].
  - intros (v & V & F) A N (j & u & J & U & G & K). cbn [nlt NumR] in G. apply Rltb_true in G. destruct (lt_eq_lt_dec j k) as [[L|E]|L].
    + specialize (K k v ltac:(lia) V). cbn [nlt NumR] in K. apply Rltb_false in K. lra.
    + subst. unfold sample in U. assert (u = v) by congruence. lra.
    + apply (N j ltac:(lia)). exists u. split; [exact U|exact G].
  - intros (v & V & F) A N NL. apply NL. exists k, v. split; [exact A|]. split; [exact V|]. split; [apply Rltb_true; exact F|]. intros j b J B. cbn [nlt NumR]. apply Rltb_false. apply Rnot_lt_le. intros Q. apply (N j ltac:(lia)). exists b. split; [exact B|exact Q].
Qed.
Lemma in_range j : (j < length y)%nat -> exists v, nth_error y j = Some v.
Proof. intros J. destruct (nth_error y j) as [v|] eqn:E; [exists v; reflexivity|]. apply nth_error_None in E. lia. Qed.
Lemma shown n j : (j < length y)%nat -> covered n j -> away (snd s n) j.
Proof. intros J C. destruct (in_range j J) as (v & V). exists v. split; [exact V|]. exact (proj1 CL j n v V C). Qed.
Lemma shown_before n j : (j < length y)%nat -> covered n j -> before (negb (snd s n)) j.
Proof.
  intros J C. pose proof (shown n j J C) as (v & V & F). unfold before. unfold far, beyond in F. destruct (snd s n) eqn:B; cbn [negb].
  - apply (turn true j j); [exists v; split; [exact V|exact F]|lia|]. lia.
  - exists j, v. split; [lia|]. split; [exact V|]. split; [apply Rltb_true; exact F|]. lia.
Qed.
Lemma equal_quiet n j : between n j -> snd s (n - 1)%Z = snd s n -> ~ away (negb (snd s n)) j.
Proof. intros B E (v & V & F). exact (proj1 (proj2 CL) j n v V B E F). Qed.
Lemma no_return n j j' : between n j -> between n j' -> (j < j')%nat -> away (snd s n) j -> ~ away (negb (snd s n)) j'.
Proof. intros B B' L (v & V & F) (v' & V' & F'). exact (proj2 (proj2 CL) j j' n v v' V V' L B B' F F'). Qed.
Lemma mid_step n : mid n = mid (n - 1) + period.
Proof. unfold mid, middle. rewrite minus_IZR. lra. Qed.
Lemma mid_le n m : (n <= m)%Z <-> mid n <= mid m.
Proof.
  unfold mid, middle. split; intros H.
  - apply IZR_le in H. apply (Rmult_le_compat_r period) in H; lra.
  - apply le_IZR. apply (Rmult_le_reg_r period); lra.
Qed.
Lemma time_le i j : (i <= j)%nat <-> time i <= time j.
Proof.
  unfold time. split; intros H.
  - apply le_INR in H. apply (Rmult_le_compat_r td) in H; lra.
  - apply INR_le. apply (Rmult_le_reg_r td); lra.
Qed.
Lemma time_S i : time (S i) = time i + td.
Proof. unfold time. rewrite S_INR. lra. Qed.
Lemma start : mid n0 - near <= time 0 <= mid n0 + near.
Proof. destruct SP as (_ & A & _). unfold time, mid. cbn [INR]. apply Rabs_between in A. lra. Qed.
Lemma finish j : (j < length y)%nat -> time j <= time (length y - 1) /\ mid n1 - near <= time (length y - 1) <= mid n1 + near.
Proof. intros J. split; [apply time_le; lia|]. destruct SP as (_ & _ & A). apply Rabs_between in A. unfold time, mid. lra. Qed.
Lemma nonempty : (0 < length y)%nat.
Proof. destruct SP as (N & _). destruct y; [congruence|cbn; lia]. Qed.
Lemma n_le : (n0 <= n1 + 1)%Z.
Proof. pose proof start as S0. destruct (finish 0 nonempty) as (A & B). pose proof (mid_step (n1 + 1)) as M. replace (n1 + 1 - 1)%Z with n1 in M by lia. apply mid_le. lra. Qed.
(** the last sample near the middle of a symbol, and the first *)
Lemma last_of n : (n0 <= n < n1)%Z -> exists a, (a < length y)%nat /\ covered n a /\ mid n + near < time (S a).
Proof.
  intros N. pose proof start as S0. destruct (finish 0 nonempty) as (_ & E). set (x := (mid n + near - first) / td). destruct (base_Int_part x) as (B1 & B2).
  assert (M0 : mid n0 <= mid n) by (apply mid_le; lia). assert (M1 : mid (n + 1) <= mid n1) by (apply mid_le; lia). pose proof (mid_step (n + 1)) as MS. replace (n + 1 - 1)%Z with n in MS by lia.
  assert (X : x * td = mid n + near - first) by (unfold x; field; lra). assert (T0 : time 0 = first) by (unfold time; cbn; lra). assert (X0 : 0 <= x) by (apply (Rmult_le_reg_r td); lra).
  assert (Z0 : (0 <= Int_part x)%Z). { assert (-1 < Int_part x)%Z; [apply lt_IZR; lra|lia]. }
  set (a := Z.to_nat (Int_part x)). assert (IA : INR a = IZR (Int_part x)) by (unfold a; rewrite INR_IZR_INZ, Z2Nat.id by exact Z0; reflexivity).
  assert (A1 : time a <= mid n + near). { unfold time. rewrite IA. apply (Rmult_le_compat_r td) in B1; lra. }
  assert (A2 : mid n + near < time (S a)). { rewrite time_S. unfold time. rewrite IA. assert ((x - 1) * td < IZR (Int_part x) * td) by (apply Rmult_lt_compat_r; lra). lra. }
  exists a. split; [|split; [|exact A2]].
  - assert (a <= length y - 1)%nat by (apply time_le; lra). pose proof nonempty. lia.
  - apply Rabs_between. rewrite time_S in A2. lra.
Qed.
Lemma first_of n : (n0 < n <= n1)%Z -> exists b, (b < length y)%nat /\ covered n b /\ time b - td < mid n - near.
Proof.
  intros N. pose proof start as S0. destruct (finish 0 nonempty) as (_ & E). set (x := (mid n - near - first) / td). destruct (base_Int_part (- x)) as (B1 & B2).
  assert (M0 : mid n0 <= mid (n - 1)) by (apply mid_le; lia). assert (M1 : mid n <= mid n1) by (apply mid_le; lia). pose proof (mid_step n) as MS.
  assert (X : x * td = mid n - near - first) by (unfold x; field; lra). assert (T0 : time 0 = first) by (unfold time; cbn; lra). assert (X0 : 0 <= x) by (apply (Rmult_le_reg_r td); lra).
  set (z := (- Int_part (- x))%Z). assert (ZR : IZR z = - IZR (Int_part (- x))) by (unfold z; apply opp_IZR). assert (Z0 : (0 <= z)%Z). { assert (-1 < z)%Z; [apply lt_IZR; lra|lia]. }
  set (b := Z.to_nat z). assert (IA : INR b = IZR z) by (unfold b; rewrite INR_IZR_INZ, Z2Nat.id by exact Z0; reflexivity).
  assert (A1 : mid n - near <= time b). { unfold time. rewrite IA, ZR. assert (x * td <= - IZR (Int_part (- x)) * td) by (apply Rmult_le_compat_r; lra). lra. }
  assert (A2 : time b - td < mid n - near). { unfold time. rewrite IA, ZR. assert (- IZR (Int_part (- x)) * td < (x + 1) * td) by (apply Rmult_lt_compat_r; lra). lra. }
  exists b. split; [|split; [|exact A2]].
  - pose proof nonempty. destruct (Nat.le_gt_cases b (length y - 1)) as [L|G]; [lia|]. assert (Q : time (S (length y - 1)) <= time b) by (apply time_le; lia). rewrite time_S in Q. lra.
  - apply Rabs_between. lra.
Qed.
Definition tr (n : Z) (i : nat) : Prop := (n0 < n <= n1)%Z /\ mid (n - 1) + near < time i /\ time i - td < mid n - near.
Lemma classify i : (1 <= i < length y)%nat -> (exists n, covered n i /\ covered n (i - 1)) \/ exists n, tr n i.
Proof.
  intros I. pose proof start as S0. destruct (finish i ltac:(lia)) as (E1 & E2). assert (T0 : time 0 <= time (i - 1)) by (apply time_le; lia).
  assert (TI : time i = time (i - 1) + td) by (rewrite <- time_S; f_equal; lia). set (x := (time i - fst s) / period + 1 / 2). destruct (base_Int_part x) as (B1 & B2). set (n := Int_part x) in *  .
  assert (X : x * period = time i - fst s + period / 2) by (unfold x; field; lra). assert (M1 : mid n - period / 2 <= time i). { unfold mid, middle. apply (Rmult_le_compat_r period) in B1; lra. }
  assert (M2 : time i < mid n + period / 2). { unfold mid, middle. assert ((x - 1) * period < IZR n * period) by (apply Rmult_lt_compat_r; lra). lra. }
  pose proof (mid_step n) as MS. pose proof (mid_step (n + 1)) as MS'. replace (n + 1 - 1)%Z with n in MS' by lia.
  destruct (Rlt_le_dec (mid n + near) (time i)) as [H|H].
  - right. exists (n + 1)%Z. split; [|replace (n + 1 - 1)%Z with n by lia; lra]. split.
    + destruct (Z.lt_ge_cases n0 (n + 1)) as [L|G]; [exact L|]. exfalso. assert (mid (n + 1) <= mid n0) by (apply mid_le; lia). lra.
    + destruct (Z.le_gt_cases (n + 1) n1) as [L|G]; [exact L|]. exfalso. assert (mid n1 <= mid n) by (apply mid_le; lia). lra.
  - destruct (Rlt_le_dec (time i) (mid n - near)) as [H2|H2].
    + right. exists n. split; [|lra]. split.
      * destruct (Z.lt_ge_cases n0 n) as [L|G]; [exact L|]. exfalso. assert (mid n <= mid n0) by (apply mid_le; lia). lra.
      * destruct (Z.le_gt_cases n n1) as [L|G]; [exact L|]. exfalso. assert (mid n1 <= mid (n - 1)) by (apply mid_le; lia). lra.
    + destruct (Rlt_le_dec (time i - td) (mid n - near)) as [H3|H3].
      * destruct (Rlt_le_dec (mid (n - 1) + near) (time i)) as [H4|H4].
        -- right. exists n. split; [|lra]. split.
           ++ destruct (Z.lt_ge_cases n0 n) as [L|G]; [exact L|]. exfalso. assert (mid n <= mid n0) by (apply mid_le; lia). lra.
           ++ destruct (Z.le_gt_cases n n1) as [L|G]; [exact L|]. exfalso. assert (mid n1 <= mid (n - 1)) by (apply mid_le; lia). lra.
        -- left. exists (n - 1)%Z. split; apply Rabs_between; lra.
      * left. exists n. split; apply Rabs_between; lra.
Qed.
Lemma tr_between n i j : tr n i -> (j < i)%nat -> mid (n - 1) + near < time j -> between n j.
Proof. intros (_ & _ & U) L M. split; [exact M|]. assert (Q : time (S j) <= time i) by (apply time_le; lia). rewrite time_S in Q. lra. Qed.
Lemma tr_self n i : tr n i -> between n i \/ covered n i.
Proof. intros (_ & A & U). destruct (Rlt_le_dec (time i) (mid n - near)) as [H|H]; [left; split; assumption|right]. apply Rabs_between. lra. Qed.
Lemma away_dec d j : away d j \/ ~ away d j.
Proof. apply classic. Qed.
Lemma some_or_none d a i : (exists k, (a < k <= i)%nat /\ away d k) \/ forall k, (a < k <= i)%nat -> ~ away d k.
Proof. destruct (classic (exists k, (a < k <= i)%nat /\ away d k)) as [H|H]; [left; exact H|right]. intros k K A. apply H. exists k. split; assumption. Qed.
(** events are the changes *)
Lemma event_changes d i : (i < length y)%nat -> event d i -> exists n, tr n i /\ snd s (n - 1)%Z = negb d /\ snd s n = d.
Proof.
  intros IL EV. apply event_before in EV. destruct EV as (I1 & BE & AW). destruct (classify i ltac:(lia)) as [(n & C1 & C2)|(n & TR)].
  - exfalso. pose proof (shown n i IL C1) as S1. pose proof (shown_before n (i - 1) ltac:(lia) C2) as S2. destruct (bool_dec (snd s n) d) as [E|E].
    + rewrite E in S2. exact (before_not d _ BE S2).
    + assert (E' : snd s n = negb d) by (apply other; assumption). rewrite E' in S1. exact (away_not_both d i AW S1).
  - pose proof TR as ((N0 & N1) & LO & UP). destruct (last_of (n - 1) ltac:(lia)) as (a & AL & CA & NA).
    assert (AI : (a < i)%nat). { apply Nat.nle_gt. intros Q. apply time_le in Q. apply Rabs_between in CA. lra. }
    assert (BT : forall j, (a < j < i)%nat -> between n j). { intros j J. apply (tr_between n i j TR); [lia|]. assert (Q : time (S a) <= time j) by (apply time_le; lia). lra. }
    pose proof (shown_before (n - 1) a AL CA) as SB. exists n. split; [exact TR|].
    destruct (bool_dec (snd s (n - 1)%Z) d) as [E0|E0].
    + exfalso. rewrite E0 in SB. destruct (some_or_none (negb d) a (i - 1)) as [(k & K & AK)|NO].
      * destruct (bool_dec (snd s n) d) as [E1|E1].
        -- apply (equal_quiet n k (BT k ltac:(lia)) ltac:(congruence)). rewrite E1. exact AK.
        -- assert (E1' : snd s n = negb d) by (apply other; assumption). destruct (tr_self n i TR) as [BI|CI].
           ++ apply (no_return n k i (BT k ltac:(lia)) BI ltac:(lia)); rewrite E1'; [exact AK|rewrite negb_involutive; exact AW].
           ++ pose proof (shown n i IL CI) as S1. rewrite E1' in S1. exact (away_not_both d i AW S1).
      * apply (before_not d (i - 1) BE). apply (keep (negb d) a); [exact SB|lia|exact NO].
    + assert (E0' : snd s (n - 1)%Z = negb d) by (apply other; assumption). split; [exact E0'|]. destruct (bool_dec (snd s n) d) as [E1|E1]; [exact E1|exfalso].
      assert (E1' : snd s n = negb d) by (apply other; assumption). destruct (tr_self n i TR) as [BI|CI].
      * apply (equal_quiet n i BI ltac:(congruence)). rewrite E1', negb_involutive. exact AW.
      * pose proof (shown n i IL CI) as S1. rewrite E1' in S1. exact (away_not_both d i AW S1).
Qed.
Lemma event_once d n i i' : event d i -> event d i' -> tr n i -> tr n i' -> snd s n = d -> (i < i')%nat -> False.
Proof.
  intros E E' T T' D L. apply event_before in E. apply event_before in E'. destruct E as (_ & _ & A). destruct E' as (_ & B' & _). pose proof T as (_ & LO & _).
  apply (turn d i (i' - 1) A); [lia| |exact B']. intros j J AJ. rewrite <- D in A, AJ. apply (no_return n i j); try assumption; try lia.
  - exact (tr_between n i' i T' L LO).
  - apply (tr_between n i' j T'); [lia|]. assert (Q : time i <= time j) by (apply time_le; lia). lra.
Qed.
Lemma change_event n d : (n0 < n <= n1)%Z -> snd s (n - 1)%Z = negb d -> snd s n = d -> exists i, (i < length y)%nat /\ event d i /\ tr n i.
Proof.
  intros N E0 E1. destruct (last_of (n - 1) ltac:(lia)) as (a & AL & CA & NA). destruct (first_of n N) as (b & BL & CB & NB). pose proof (shown _ _ AL CA) as SA. pose proof (shown _ _ BL CB) as SB. rewrite E0 in SA. rewrite E1 in SB.
  pose proof (mid_step n) as MS. assert (AB : (a < b)%nat).
  { apply Nat.nle_gt. intros Q. assert (a = b). { apply Nat.le_antisymm; [|exact Q]. apply time_le. apply Rabs_between in CA. apply Rabs_between in CB. lra. } subst b. exact (away_not_both d a SB SA). }
  destruct (least (away d) a b (away_dec d) AB SB) as (i & I & AI & M). exists i. split; [lia|].
  assert (TR : tr n i). { split; [exact N|]. assert (Q1 : time (S a) <= time i) by (apply time_le; lia). assert (Q2 : time i <= time b) by (apply time_le; lia). lra. }
  split; [|exact TR]. apply event_before. split; [lia|]. split; [|exact AI]. apply (keep d a); [|lia|intros j J; apply M; lia]. pose proof (shown_before _ _ AL CA) as Q. rewrite E0, negb_involutive in Q. exact Q.
Qed.
(** their times *)
Definition grid : list R := map time (seq 0 (length y)).
Lemma grid_nth j : (j < length y)%nat -> nth_error grid j = Some (time j).
Proof. intros J. unfold grid. rewrite nth_error_map, (nth_error_nth' _ 0%nat) by (rewrite seq_length; exact J). rewrite seq_nth by exact J. reflexivity. Qed.
Lemma event_time d i n : (i < length y)%nat -> event d i -> tr n i -> snd s (n - 1)%Z = negb d ->
  exists x a, (exists j, crossing grid y (Z.of_nat i) (l_half l) false 0 = Ok (Some x, j)) /\ mid (n - 1) + near < time (S a) /\ time a < x <= time i /\ Rabs (x - (mid n - period / 2)) <= period / 2 - near + td.
Proof.
  intros IL EV TR E0. apply event_before in EV. destruct EV as (I1 & _ & (yi & YI & FI)). pose proof TR as (N & LO & UP). destruct (last_of (n - 1) ltac:(lia)) as (a & AL & CA & NA). destruct (shown _ _ AL CA) as (ya & YA & FA). rewrite E0 in FA.
  assert (AI : (a < i)%nat). { apply Nat.nle_gt. intros Q. apply time_le in Q. apply Rabs_between in CA. lra. }
  assert (HV : ya < l_half l < yi \/ yi < l_half l < ya). { destruct ORD as (O1 & O2). unfold far, beyond, rise, fall in FI, FA. destruct d; cbn [negb] in FA; lra. }
  destruct (straddle_between y (l_half l) (i - a) a ya yi YA ltac:(replace (a + (i - a))%nat with i by lia; exact YI) ltac:(lra)) as (q & Q & SQ).
  assert (LG : length grid = length y) by (unfold grid; rewrite map_length, seq_length; reflexivity).
  destruct (C03_crossing_backward grid y i (l_half l) LG ltac:(lia)) as [(j & x & E & J & SJ & NS & IP)|(NO & _)]; [|destruct (NO q ltac:(lia) SQ)].
  exists x, a. split; [exists (Z.of_nat j); exact E|]. split; [exact NA|]. assert (JQ : (a < j)%nat). { destruct (Nat.le_gt_cases q j) as [G|G]; [lia|]. destruct (NS q ltac:(lia) SQ). }
  destruct IP as (x1 & x2 & y1 & y2 & X1 & X2 & Y1 & _ & _ & LI & BT). unfold sample in X1, X2, Y1. rewrite grid_nth in X1, X2 by lia. assert (x1 = time (j - 1)) as -> by congruence. assert (x2 = time j) as -> by congruence. clear X1 X2.
  assert (T1 : time a <= time (j - 1)) by (apply time_le; lia). assert (TJ : time j = time (j - 1) + td) by (rewrite <- time_S; f_equal; lia). assert (T3 : time j <= time i) by (apply time_le; lia). rewrite Rmin_left, Rmax_right in BT by lra.
  assert (AX : time a < x). { destruct (Rlt_le_dec (time a) x) as [G|G]; [exact G|exfalso]. assert (XA : time (j - 1) = time a) by lra. assert (x = time a) by lra. assert (j - 1 = a)%nat by (apply Nat.le_antisymm; apply time_le; lra). subst x.
    assert (y1 = ya) by congruence. subst y1. rewrite XA in LI. assert (Z : (l_half l - ya) * (time j - time a) = 0) by lra. apply Rmult_integral in Z. lra. }
  split; [lra|]. apply Rabs_between in CA. rewrite time_S in NA. pose proof (mid_step n) as MS. apply Rabs_le. lra.
Qed.
(** numbering *)
Definition numbered (x : R) (n : Z) : Prop := exists d i j, (i < length y)%nat /\ event d i /\ tr n i /\ snd s (n - 1)%Z = negb d /\ snd s n = d /\ crossing grid y (Z.of_nat i) (l_half l) false 0 = Ok (Some x, j).
Lemma numbered_near x n : numbered x n -> Rabs (x - (mid n - period / 2)) <= period / 2 - near + td.
Proof. intros (d & i & j & IL & EV & TR & E0 & E1 & C). destruct (event_time d i n IL EV TR E0) as (x' & a & (j' & C') & _ & _ & Q). assert (x' = x) as -> by congruence. exact Q. Qed.
Lemma numbered_mono x n x' n' : numbered x n -> numbered x' n' -> (n < n')%Z -> x < x'.
Proof.
  intros (d & i & j & IL & EV & TR & E0 & E1 & C) (d' & i' & j' & IL' & EV' & TR' & E0' & E1' & C') L.
  destruct (event_time d i n IL EV TR E0) as (z & a & (q & Q) & _ & B & _). assert (z = x) as -> by congruence. destruct (event_time d' i' n' IL' EV' TR' E0') as (z' & a' & (q' & Q') & NA & B' & _). assert (z' = x') as -> by congruence.
  destruct TR as (_ & _ & UP). assert (M : mid n <= mid (n' - 1)) by (apply mid_le; lia). assert (H : time i <= time a'); [|lra]. apply time_le. apply Nat.nlt_ge. intros G. assert (time (S a') <= time i) by (apply time_le; lia). lra.
Qed.
Lemma numbered_same x x' n : numbered x n -> numbered x' n -> x = x'.
Proof.
  intros (d & i & j & IL & EV & TR & E0 & E1 & C) (d' & i' & j' & IL' & EV' & TR' & E0' & E1' & C'). assert (d' = d) as -> by congruence. destruct (lt_eq_lt_dec i i') as [[L|E]|L].
  - destruct (event_once d n i i' EV EV' TR TR' E1 L).
  - subst. congruence.
  - destruct (event_once d n i' i EV' EV TR' TR E1 L).
Qed.
Lemma numbered_lt x n x' n' : numbered x n -> numbered x' n' -> x < x' -> (n < n')%Z.
Proof. intros N N' L. destruct (Z.lt_trichotomy n n') as [H|[H|H]]; [exact H| |]; exfalso; [subst n'; rewrite (numbered_same x x' n N N') in L; lra|]. pose proof (numbered_mono x' n' x n N' N H). lra. Qed.
Lemma numbered_unique x n n' : numbered x n -> numbered x n' -> n = n'.
Proof. intros N N'. destruct (Z.lt_trichotomy n n') as [H|[H|H]]; [|exact H|]; exfalso; [pose proof (numbered_mono x n x n' N N' H)|pose proof (numbered_mono x n' x n N' N H)]; lra. Qed.
(** the edges of one direction *)
Definition edges_of (d : bool) (es : list R) : Prop :=
  (forall x, In x es -> exists n, numbered x n /\ snd s n = d) /\ (forall n, (n0 < n <= n1)%Z -> snd s (n - 1)%Z <> snd s n -> snd s n = d -> exists x, In x es /\ numbered x n).
Lemma listed_edges d r : listed_at (length y) (event d) (fun i e => exists j, crossing grid y (Z.of_nat i) (l_half l) false 0 = Ok (e, j)) r -> exists es, r = map Some es /\ edges_of d es.
Proof.
  intros (idx & _ & IN & F). assert (G : exists es, r = map Some es /\ Forall2 (fun i x => exists j, crossing grid y (Z.of_nat i) (l_half l) false 0 = Ok (Some x, j)) idx es).
  { assert (A : forall i, In i idx -> (i < length y)%nat /\ event d i) by (intros i I; apply IN; exact I). clear IN. induction F as [|i e idx r (j & C) F IH]; [exists []; split; [reflexivity|constructor]|].
    destruct IH as (es & -> & FE); [intros q Q; apply A; right; exact Q|]. destruct (A i (or_introl eq_refl)) as (IL & EV). destruct (event_changes d i IL EV) as (n & TR & E0 & _). destruct (event_time d i n IL EV TR E0) as (x & _ & (q & Q) & _).
    assert (e = Some x) as -> by congruence. exists (x :: es). split; [reflexivity|]. constructor; [exists q; exact Q|exact FE]. }
  destruct G as (es & -> & FE). exists es. split; [reflexivity|]. split.
  - intros x X. assert (H : exists i, In i idx /\ exists j, crossing grid y (Z.of_nat i) (l_half l) false 0 = Ok (Some x, j)). { clear -FE X. induction FE as [|i z idx es C F IH]; [destruct X|]. destruct X as [->|X]; [exists i; split; [left; reflexivity|exact C]|]. destruct (IH X) as (q & Q & C'). exists q. split; [right; exact Q|exact C']. }
    destruct H as (i & I & j & C). apply IN in I. destruct I as (IL & EV). destruct (event_changes d i IL EV) as (n & TR & E0 & E1). exists n. split; [|exact E1]. exists d, i, j. repeat (split; [assumption|]). exact C.
  - intros n N NE ED. assert (E0 : snd s (n - 1)%Z = negb d) by (apply other; congruence). destruct (change_event n d N E0 ED) as (i & IL & EV & TR). assert (I : In i idx) by (apply IN; split; assumption).
    assert (H : exists x, In x es /\ exists j, crossing grid y (Z.of_nat i) (l_half l) false 0 = Ok (Some x, j)). { clear -FE I. induction FE as [|q z idx es C F IH]; [destruct I|]. destruct I as [->|I]; [exists z; split; [left; reflexivity|exact C]|]. destruct (IH I) as (x & X & C'). exists x. split; [right; exact X|exact C']. }
    destruct H as (x & X & j & C). exists x. split; [exact X|]. exists d, i, j. repeat (split; [assumption|]). exact C.
Qed.
Lemma numbers_exist es : StronglySorted Rlt es -> (forall x, In x es -> exists n, numbered x n) -> exists ns, Forall2 numbered es ns /\ StronglySorted Z.lt ns.
Proof.
  induction 1 as [|x es SS IH F]; intros A; [exists []; split; constructor|]. destruct IH as (ns & FN & SN); [intros q Q; apply A; right; exact Q|]. destruct (A x (or_introl eq_refl)) as (n & N). exists (n :: ns). split; [constructor; assumption|]. constructor; [exact SN|].
  clear SS A SN. induction FN as [|z m es ns M FN IH]; [constructor|]. inversion F as [|? ? F1 F2]; subst. constructor; [exact (numbered_lt x n z m N M F1)|apply IH; exact F2].
Qed.
Lemma grid_sorted : StronglySorted Rlt grid.
Proof.
  unfold grid. generalize 0%nat. induction (length y) as [|m IH]; intros k; [constructor|]. cbn [seq map]. constructor; [apply IH|]. apply Forall_forall. intros x X. apply in_map_iff in X. destruct X as (j & <- & J). apply in_seq in J. assert (Q : time (S k) <= time j) by (apply time_le; lia). rewrite time_S in Q. lra.
Qed.
Lemma sorted_edges p : exists es ns, selected_edges l p (grid, y) = Ok es /\ Forall2 numbered es ns /\ StronglySorted Z.lt ns /\ (forall n, In n ns <-> (n0 < n <= n1)%Z /\ change p s n).
Proof.
  assert (LG : length grid = length y) by (unfold grid; rewrite map_length, seq_length; reflexivity). assert (NE : y <> []) by (destruct SP as (Q & _); exact Q).
  destruct (C04_edges_total grid y (l_rising l) (l_half l) (l_falling l) LG NE) as (r & f & E).
  assert (PB : proper_band y (l_rising l) (l_falling l)). { intros v _ A B. cbn in A, B. apply Rltb_true in A. apply Rltb_true in B. pose proof fr. unfold fall, rise in *  . lra. }
  destruct (C04_edges_hysteresis R NumR grid y (l_rising l) (l_half l) (l_falling l) r f PB E) as (LR & LF).
  destruct (listed_edges true r LR) as (rs & -> & (R1 & R2)). destruct (listed_edges false f LF) as (fs & -> & (F1 & F2)). clear LR LF.
  assert (EQ : selected_edges l p (grid, y) = Ok (match p with RISING => rs | FALLING => fs | BOTH => StatsModel.sorted (rs ++ fs) end)).
  { unfold selected_edges. cbn [fst snd]. rewrite C09_edges_np_same by exact LG. rewrite E. cbn [bind fst snd]. pose proof (proj2 (finite_some (map Some rs) rs) eq_refl) as Q1. pose proof (proj2 (finite_some (map Some fs) fs) eq_refl) as Q2. destruct p; [exact Q1|exact Q2|]. rewrite Q1, Q2. reflexivity. }
  pose proof (proj1 (C57_clock_edges l grid y LG NE grid_sorted ORD) p _ EQ) as SS. set (es := match p with RISING => rs | FALLING => fs | BOTH => StatsModel.sorted (rs ++ fs) end) in *  .
  assert (MEM : forall x, In x es <-> match p with RISING => In x rs | FALLING => In x fs | BOTH => In x rs \/ In x fs end).
  { intros x. unfold es. destruct p; [tauto|tauto|]. destruct (EyeRProofs.sorted_R (rs ++ fs)) as (_ & PM). rewrite <- in_app_iff. split; apply Permutation_in; [apply Permutation_sym|]; exact PM. }
  destruct (numbers_exist es SS) as (ns & FN & SN). { intros x X. apply MEM in X. destruct p; [|destruct (F1 x X) as (n & N & _); exists n; exact N|destruct X as [X|X]; [|destruct (F1 x X) as (n & N & _); exists n; exact N]]; destruct (R1 x X) as (n & N & _); exists n; exact N. }
  exists es, ns. split; [exact EQ|]. split; [exact FN|]. split; [exact SN|]. intros n. split.
  - intros I. assert (H : exists x, In x es /\ numbered x n). { clear -FN I. induction FN as [|q z es ns C F IH]; [destruct I|]. destruct I as [->|I]; [exists q; split; [left; reflexivity|exact C]|]. destruct (IH I) as (x & X & C'). exists x. split; [right; exact X|exact C']. }
    destruct H as (x & X & NX). pose proof NX as (d & i & j & _ & _ & (N & _) & E0 & E1 & _). split; [exact N|]. split; [rewrite E0, E1; destruct d; discriminate|]. apply MEM in X. destruct p; [|destruct (F1 x X) as (m & M & D); rewrite (numbered_unique x n m NX M); exact D|exact Logic.I].
    destruct (R1 x X) as (m & M & D). rewrite (numbered_unique x n m NX M). exact D.
  - intros (N & NC & PC). assert (H : exists x, In x es /\ numbered x n).
    { destruct (bool_dec (snd s n) true) as [D|D]; [destruct (R2 n N NC D) as (x & X & NX)|apply not_true_is_false in D; destruct (F2 n N NC D) as (x & X & NX)]; exists x; (split; [apply MEM|exact NX]); destruct p; try assumption; try (left; assumption); try (right; assumption); congruence. }
    destruct H as (x & X & NX). assert (Q : exists m, In m ns /\ numbered x m). { clear -FN X. induction FN as [|q z es ns C F IH]; [destruct X|]. destruct X as [->|X]; [exists z; split; [left; reflexivity|exact C]|]. destruct (IH X) as (m & M & C'). exists m. split; [right; exact M|exact C']. }
    destruct Q as (m & M & NM). rewrite (numbered_unique x n m NX NM). exact M.
Qed.
End Edges.
