From Coq Require Import List ZArith Bool Lia Sorted Reals Lra.
Import ListNotations.
From Verif Require Import Base Num RBool LinesModel LinesSpec LinesProofs.
Local Open Scope R_scope.
Local Open Scope result_scope.

Lemma crosses_straddles (s : list R) v k : crosses s v k <-> straddles s v k.
Proof.
  unfold crosses, straddles. cbn. split; intros (Hk & a & b & Ha & Hb & Hc); split; try assumption;
    exists a, b; (split; [assumption|]); (split; [assumption|]).
  - destruct (Rltb v a) eqn:E1, (Rltb v b) eqn:E2; try congruence;
      rewrite ?Rltb_true, ?Rltb_false in * ; lra.
  - destruct Hc as [[H1 H2]|[H1 H2]].
    + rewrite (proj2 (Rltb_false v a) H1), (proj2 (Rltb_true v b) H2). discriminate.
    + rewrite (proj2 (Rltb_true v a) H2), (proj2 (Rltb_false v b) H1). discriminate.
Qed.

(** The point of level v on a chord lies between its ends. *)
Lemma chord_between x1 x2 y1 y2 v : y1 <= v < y2 \/ y2 <= v < y1 ->
  let x := (x2 - x1) / (y2 - y1) * (v - y1) + x1 in
  (x - x1) * (y2 - y1) = (v - y1) * (x2 - x1) /\ Rmin x1 x2 <= x <= Rmax x1 x2 /\
  (x1 < x2 -> y1 <> v -> x1 < x) /\ (x1 < x2 -> x <= x2).
Proof.
  intros Hv x.
  assert (Hd : y2 - y1 <> 0) by lra.
  set (k := (v - y1) / (y2 - y1)).
  assert (Hk : 0 <= k <= 1 /\ (y1 <> v -> 0 < k)).
  { unfold k. destruct Hv as [Hv|Hv].
    - assert (0 < / (y2 - y1)) by (apply Rinv_0_lt_compat; lra).
      assert (/ (y2 - y1) * (y2 - y1) = 1) by (field; lra). unfold Rdiv. split; [split|]; try nra.
      
    - assert (0 < / (y1 - y2)) by (apply Rinv_0_lt_compat; lra).
      assert (/ (y1 - y2) * (y1 - y2) = 1) by (field; lra).
      replace ((v - y1) / (y2 - y1)) with ((y1 - v) * / (y1 - y2)) by (field; lra).
      split; [split|]; nra. }
  assert (Hx : x = x1 + k * (x2 - x1)) by (unfold x, k; field; lra).
  destruct Hk as [Hk Hk0]. split; [unfold x; field; lra|].
  split; [|split].
  - rewrite Hx. unfold Rmin, Rmax. destruct (Rle_dec x1 x2); split; nra.
  - intros Hlt Hne. specialize (Hk0 Hne). rewrite Hx. nra.
  - intros Hlt. rewrite Hx. nra.
Qed.

Lemma interp_at_R ret s v j : straddles s v j -> length ret = length s ->
  exists x, interp_at ret s v j = Ok (Some x, Z.of_nat j) /\ interpolates ret s v j x /\
    forall x1 x2 y1, sample ret (j - 1) x1 -> sample ret j x2 -> sample s (j - 1) y1 -> x1 < x2 ->
      x <= x2 /\ (y1 <> v -> x1 < x).
Proof.
  intros (Hj & y1 & y2 & Hy1 & Hy2 & Hv) Hlen.
  pose proof (sample_lt _ _ _ Hy2) as Hjl.
  destruct (sample_ex ret (j - 1) ltac:(lia)) as [x1 Hx1].
  destruct (sample_ex ret j ltac:(lia)) as [x2 Hx2].
  destruct (chord_between x1 x2 y1 y2 v Hv) as (He & Hb & Hs1 & Hs2).
  eexists. split; [|split].
  - unfold interp_at.
    rewrite (get_ok _ _ _ Hx1), (get_ok _ _ _ Hx2), (get_ok _ _ _ Hy1), (get_ok _ _ _ Hy2).
    cbn [bind]. cbn. rewrite py_div_R by lra. cbn [bind]. reflexivity.
  - exists x1, x2, y1, y2. repeat (split; [assumption|]). split; [lra|]. split; assumption.
  - intros x1' x2' y1' H1 H2 H3 Hlt.
    rewrite <- (sample_fun _ _ _ _ Hx1 H1), <- (sample_fun _ _ _ _ Hx2 H2) in Hlt |- * .
    rewrite <- (sample_fun _ _ _ _ Hy1 H3). split; [apply Hs2|intros; apply Hs1]; assumption.
Qed.

Lemma crossing_backward_R ret s (k : nat) v : length ret = length s -> (1 <= k < length s)%nat ->
  (exists j x, crossing ret s (Z.of_nat k) v false 0 = Ok (Some x, Z.of_nat j) /\
     (1 <= j <= k)%nat /\ straddles s v j /\ (forall m, (j < m <= k)%nat -> ~ straddles s v m) /\
     interpolates ret s v j x) \/
  ((forall m, (1 <= m <= k)%nat -> ~ straddles s v m) /\
     crossing ret s (Z.of_nat k) v false 0 = Ok (None, 0%Z)).
Proof.
  intros Hlen Hk. destruct (crossing_back ret s k v Hk) as [(j & Hj & Hc & Hn & He)|[Hn He]].
  - left. apply crosses_straddles in Hc. destruct (interp_at_R ret s v j Hc Hlen) as (x & Hx & Hi & _).
    exists j, x. split; [congruence|]. split; [exact Hj|]. split; [exact Hc|]. split; [|exact Hi].
    intros m Hm. rewrite <- crosses_straddles. auto.
  - right. split; [|exact He]. intros m Hm. rewrite <- crosses_straddles. auto.
Qed.

Lemma crossing_forward_R ret s (k : nat) v : length ret = length s -> (1 <= k < length s)%nat ->
  (exists j x, crossing ret s (Z.of_nat k) v true 0 = Ok (Some x, Z.of_nat j) /\
     (k <= j < length s)%nat /\ straddles s v j /\ (forall m, (k <= m < j)%nat -> ~ straddles s v m) /\
     interpolates ret s v j x) \/
  ((forall m, (k <= m < length s)%nat -> ~ straddles s v m) /\
     crossing ret s (Z.of_nat k) v true 0 = Ok (None, Z.of_nat (length s))).
Proof.
  intros Hlen Hk. destruct (crossing_forward ret s k v Hk) as [(j & Hj & Hc & Hn & He)|[Hn He]].
  - left. apply crosses_straddles in Hc. destruct (interp_at_R ret s v j Hc Hlen) as (x & Hx & Hi & _).
    exists j, x. split; [congruence|]. split; [exact Hj|]. split; [exact Hc|]. split; [|exact Hi].
    intros m Hm. rewrite <- crosses_straddles. auto.
  - right. split; [|exact He]. intros m Hm. rewrite <- crosses_straddles. auto.
Qed.

(** *** edge times *)
Lemma sorted_sample (t : list R) : StronglySorted Rlt t -> forall i j a b, (i < j)%nat ->
  sample t i a -> sample t j b -> a < b.
Proof.
  induction 1 as [|x t Hs IH Hall]; intros i j a b Hij Ha Hb.
  - destruct i; discriminate.
  - destruct j as [|j]; [lia|]. destruct i as [|i].
    + injection Ha as <-. cbn in Hb. rewrite Forall_forall in Hall. apply Hall.
      exact (nth_error_In t j Hb).
    + apply (IH i j); [lia|exact Ha|exact Hb].
Qed.

Lemma sorted_sample_le (t : list R) : StronglySorted Rlt t -> forall i j a b, (i <= j)%nat ->
  sample t i a -> sample t j b -> a <= b.
Proof.
  intros Hs i j a b Hij Ha Hb. destruct (Nat.eq_dec i j) as [->|Hne].
  - rewrite (sample_fun _ _ _ _ Ha Hb). lra.
  - left. apply (sorted_sample t Hs i j); [lia|assumption|assumption].
Qed.

(** Samples on different sides: there is a crossing in between. *)
Lemma crossing_exists (s : list R) v : forall d k a b, sample s k a -> sample s (k + d) b ->
  Rltb v a <> Rltb v b -> exists m, (k < m <= k + d)%nat /\ crosses s v m.
Proof.
  induction d as [|d IH]; intros k a b Ha Hb Hne.
  - rewrite Nat.add_0_r in Hb. rewrite (sample_fun _ _ _ _ Ha Hb) in Hne. congruence.
  - pose proof (sample_lt _ _ _ Hb) as Hl.
    destruct (sample_ex s (k + d) ltac:(lia)) as [c Hc].
    destruct (Bool.bool_dec (Rltb v a) (Rltb v c)) as [E|E].
    + exists (k + S d)%nat. split; [lia|]. split; [lia|].
      exists c, b. replace (k + S d - 1)%nat with (k + d)%nat by lia.
      split; [exact Hc|]. split; [exact Hb|]. cbn. congruence.
    + destruct (IH k a c Ha Hc E) as (m & Hm & Hcr). exists m. split; [lia|exact Hcr].
Qed.

Lemma half_between (t y : list R) v k i a b tk ti :
  length t = length y -> StronglySorted Rlt t -> (k < i)%nat ->
  sample y k a -> sample y i b -> sample t k tk -> sample t i ti ->
  Rltb v a <> Rltb v b -> a <> v ->
  exists x j, crossing t y (Z.of_nat i) v false 0 = Ok (Some x, j) /\ tk < x <= ti.
Proof.
  intros Hlen Hs Hki Ha Hb Htk Hti Hne Hav.
  pose proof (sample_lt _ _ _ Hb) as Hil.
  destruct (crossing_exists y v (i - k) k a b Ha) as (m & Hm & Hcm);
    [replace (k + (i - k))%nat with i by lia; exact Hb|exact Hne|].
  destruct (crossing_back t y i v ltac:(lia)) as [(j & Hj & Hc & Hn & He)|[Hn He]];
    [|exfalso; apply (Hn m); [lia|exact Hcm]].
  assert (Hkj : (k < j)%nat).
  { destruct (le_lt_dec j k); [|lia]. exfalso. apply (Hn m); [lia|exact Hcm]. }
  apply crosses_straddles in Hc.
  destruct (interp_at_R t y v j Hc Hlen) as (x & Hx & _ & Hbd).
  exists x, (Z.of_nat j). split; [congruence|].
  destruct (sample_ex t (j - 1) ltac:(lia)) as [t1 Ht1].
  destruct (sample_ex t j ltac:(lia)) as [t2 Ht2].
  destruct (sample_ex y (j - 1) ltac:(lia)) as [c Hc1].
  assert (Ht12 : t1 < t2) by (apply (sorted_sample t Hs (j - 1) j); [lia|assumption|assumption]).
  destruct (Hbd t1 t2 c Ht1 Ht2 Hc1 Ht12) as [Hle Hlt].
  assert (t2 <= ti) by (apply (sorted_sample_le t Hs j i); [lia|assumption|assumption]).
  split; [|lra].
  destruct (Nat.eq_dec (j - 1) k) as [E|E].
  - rewrite E in * . rewrite (sample_fun _ _ _ _ Htk Ht1). apply Hlt.
    rewrite <- (sample_fun _ _ _ _ Ha Hc1). exact Hav.
  - assert (tk < t1) by (apply (sorted_sample t Hs k (j - 1)); [lia|assumption|assumption]).
    destruct Hc as (_ & c' & d' & Hc' & Hd' & Hv').
    destruct (chord_between t1 t2 c' d' v Hv') as (_ & Hb1 & _).
    unfold interp_at in Hx. rewrite (get_ok _ _ _ Ht1), (get_ok _ _ _ Ht2), (get_ok _ _ _ Hc'), (get_ok _ _ _ Hd') in Hx.
    cbn [bind] in Hx. cbn in Hx. rewrite py_div_R in Hx by lra. cbn [bind] in Hx.
    injection Hx as <-. cbv zeta in Hb1. destruct Hb1 as [Hb1 _].
    rewrite Rmin_left in Hb1 by lra. lra.
Qed.

Section Times.
Variables (t y : list R) (y_rise y_half y_fall : R).
Hypothesis Hlen : length t = length y.
Hypothesis Hst : StronglySorted Rlt t.
Hypothesis Hfh : y_fall <= y_half.
Hypothesis Hhr : y_half <= y_rise.

Lemma chain : forall l d k a tk,
  alt d l -> StronglySorted lt (map ev_idx l) -> Forall (ev_ok t y y_rise y_half y_fall) l ->
  Forall (fun i => (k < i)%nat) (map ev_idx l) ->
  sample y k a -> sample t k tk -> (if d then a < y_half else y_half < a) ->
  exists xs, map ev_val l = map Some xs /\ StronglySorted Rlt xs /\ Forall (fun x => tk < x) xs.
Proof.
  induction l as [|e l IH]; intros d k a tk Halt Hso Hok Hk Ha Htk Hside.
  - exists []. repeat split; constructor.
  - destruct Halt as [Hd Halt]. cbn [map] in Hso, Hk.
    inversion Hso as [|? ? Hso' Hall]; subst. inversion Hok as [|? ? He Hok']; subst.
    inversion Hk as [|? ? Hke Hk']; subst.
    destruct He as (Hi & (j & Hcr) & b & Hb & Hthr).
    destruct (sample_ex t (ev_idx e) ltac:(lia)) as [ti Hti].
    cbn in Hthr.
    assert (Hstrict : if ev_rise e then y_half < b else b < y_half \/ (b < y_fall)).
    { destruct (ev_rise e); apply Rltb_true in Hthr; [lra|right; lra]. }
    assert (Hopp : Rltb y_half a <> Rltb y_half b /\ a <> y_half).
    { destruct (ev_rise e); split; try lra.
      - rewrite (proj2 (Rltb_false y_half a)) by lra. rewrite (proj2 (Rltb_true y_half b)) by lra. discriminate.
      - rewrite (proj2 (Rltb_true y_half a)) by lra. rewrite (proj2 (Rltb_false y_half b)) by lra. discriminate. }
    destruct Hopp as [Hopp Hane].
    destruct (half_between t y y_half k (ev_idx e) a b tk ti Hlen Hst Hke Ha Hb Htk Hti Hopp Hane)
      as (x & j' & Hcr' & Hx).
    rewrite Hcr in Hcr'. injection Hcr' as Hval _.
    destruct (IH (negb (ev_rise e)) (ev_idx e) b ti Halt Hso' Hok' Hall Hb Hti) as (xs & Hxs & Hsx & Hgt).
    { destruct (ev_rise e); cbn [negb]; lra. }
    exists (x :: xs). cbn [map]. rewrite Hval, Hxs. split; [reflexivity|]. split.
    + constructor; [exact Hsx|]. apply Forall_impl with (2 := Hgt). intros z Hz. lra.
    + constructor; [lra|]. apply Forall_impl with (2 := Hgt). intros z Hz. lra.
Qed.

Lemma interleave_length {X} (l1 l2 : list X) : length (interleave l1 l2) = (length l1 + length l2)%nat.
Proof.
  revert l2; induction l1 as [|a l1 IH]; intros [|b l2]; cbn [interleave length]; try lia.
  rewrite IH. lia.
Qed.

Lemma edges_total : y <> [] -> exists r f, edges t y y_rise y_half y_fall = Ok (r, f).
Proof.
  intros Hne. unfold edges. destruct (sample_ex y 0) as [y0 H0]; [destruct y; [congruence|simpl; lia]|].
  rewrite (get_ok _ _ _ H0). cbn [bind].
  assert (Hf : forall l s, (forall i, In i l -> (1 <= i < length y)%nat) ->
    exists s', foldM (edges_step t y y_rise y_half y_fall 0) s l = Ok s').
  { induction l as [|i l IH]; intros s Hin; cbn [foldM]; [eauto|].
    assert (Hi : (1 <= i < length y)%nat) by (apply Hin; left; reflexivity).
    assert (exists s', edges_step t y y_rise y_half y_fall 0 s i = Ok s') as [s' Hs'].
    { destruct s as [[low r] f]. unfold edges_step.
      destruct (sample_ex y i ltac:(lia)) as [a Ha]. rewrite (get_ok _ _ _ Ha). cbn [bind].
      assert (exists c, crossing t y (Z.of_nat i) y_half false 0 = Ok c) as [c Hc].
      { destruct (crossing_backward_R t y i y_half Hlen Hi) as [(j & x & He & _)|[_ He]]; eauto. }
      rewrite Hc. cbn [bind]. destruct low; [destruct (nlt y_rise a)|destruct (nlt a y_fall)]; eauto. }
    rewrite Hs'. apply IH. intros k Hk. apply Hin. right; exact Hk. }
  destruct (Hf (range 1 (length y)) (nlt y0 y_fall, [], [])) as [s' Hs'].
  { intros i Hi. unfold range in Hi. apply in_seq in Hi. lia. }
  rewrite Hs'. cbn [bind]. destruct s' as [[low r] f]. eauto.
Qed.

Lemma edge_times r f y0 : sample y 0 y0 -> edges t y y_rise y_half y_fall = Ok (r, f) ->
  let l := if Rltb y0 y_fall then interleave r f else interleave f r in
  (exists xs, l = map Some xs /\ StronglySorted Rlt xs) \/
  (y_fall <= y0 <= y_half /\
   exists i xs, l = None :: map Some xs /\ StronglySorted Rlt xs /\
     (1 <= i)%nat /\ (exists b, sample y i b /\ b < y_fall) /\
     forall k a, (k < i)%nat -> sample y k a -> a <= y_half).
Proof.
  intros H0 He l.
  destruct (edges_events t y y_rise y_half y_fall r f y0 H0 He) as (ev & Halt & Hso & Hok & -> & ->).
  assert (Hl : l = map ev_val ev).
  { rewrite (alt_interleave ev _ Halt). unfold l. cbn. destruct (Rltb y0 y_fall); reflexivity. }
  clearbody l. subst l. cbn in Halt.
  pose proof (sample_lt _ _ _ H0) as Hy0.
  destruct (sample_ex t 0 ltac:(lia)) as [t0 Ht0].
  assert (Hpos : Forall (fun i => (0 < i)%nat) (map ev_idx ev)).
  { apply Forall_forall. intros i Hi. apply in_map_iff in Hi. destruct Hi as (e & <- & Hin).
    rewrite Forall_forall in Hok. destruct (Hok e Hin) as (H1 & _). lia. }
  destruct (Rltb y0 y_fall) eqn:E; [apply Rltb_true in E|apply Rltb_false in E].
  - left. destruct (chain ev true 0 y0 t0 Halt Hso Hok Hpos H0 Ht0) as (xs & H1 & H2 & _); [lra|].
    exists xs. auto.
  - destruct (Rlt_le_dec y_half y0) as [Hy|Hy].
    + left. destruct (chain ev false 0 y0 t0 Halt Hso Hok Hpos H0 Ht0) as (xs & H1 & H2 & _); [lra|].
      exists xs. auto.
    + destruct ev as [|e ev].
      * left. exists []. split; [reflexivity|constructor].
      * destruct Halt as [Hd Halt]. cbn [map] in Hso.
        inversion Hso as [|? ? Hso' Hall]; subst. inversion Hok as [|? ? Hoke Hok']; subst.
        destruct Hoke as (Hi & (j & Hcr) & b & Hb & Hthr). rewrite Hd in * .
        cbn in Hthr. apply Rltb_true in Hthr.
        destruct (sample_ex t (ev_idx e) ltac:(lia)) as [ti Hti].
        destruct (chain ev true (ev_idx e) b ti Halt Hso' Hok' Hall Hb Hti) as (xs & Hxs & Hsx & Hgt); [lra|].
        destruct (crossing_back t y (ev_idx e) y_half ltac:(lia)) as [(j' & Hj' & Hc & Hn & Hcr')|[Hn Hcr']].
        -- left. apply crosses_straddles in Hc.
           destruct (interp_at_R t y y_half j' Hc Hlen) as (x & Hx & _ & Hbd).
           rewrite Hcr, Hx in Hcr'. injection Hcr' as Hval _.
           exists (x :: xs). cbn [map]. rewrite Hval, Hxs. split; [reflexivity|].
           constructor; [exact Hsx|]. apply Forall_impl with (2 := Hgt). intros z Hz.
           destruct (sample_ex t (j' - 1) ltac:(lia)) as [t1 Ht1].
           destruct (sample_ex t j' ltac:(lia)) as [t2 Ht2].
           destruct (sample_ex y (j' - 1) ltac:(lia)) as [c Hc1].
           assert (Ht12 : t1 < t2) by (apply (sorted_sample t Hst (j' - 1) j'); [lia|assumption|assumption]).
           destruct (Hbd t1 t2 c Ht1 Ht2 Hc1 Ht12) as [Hle _].
           assert (t2 <= ti) by (apply (sorted_sample_le t Hst j' (ev_idx e)); [lia|assumption|assumption]).
           lra.
        -- right. split; [lra|]. rewrite Hcr in Hcr'. injection Hcr' as Hval _.
           exists (ev_idx e), xs. cbn [map]. rewrite Hval, Hxs. split; [reflexivity|]. split; [exact Hsx|].
           assert (Hbelow : forall k a, (k < ev_idx e)%nat -> sample y k a -> a <= y_half).
           { intros k a Hk Ha. destruct (Rle_lt_dec a y_half) as [|Hgt2]; [assumption|]. exfalso.
             destruct (crossing_exists y y_half (ev_idx e - k) k a b Ha) as (m & Hm & Hcm).
             - replace (k + (ev_idx e - k))%nat with (ev_idx e) by lia. exact Hb.
             - rewrite (proj2 (Rltb_true y_half a)) by lra. rewrite (proj2 (Rltb_false y_half b)) by lra. discriminate.
             - apply (Hn m); [lia|exact Hcm]. }
           split; [lia|]. split; [|exact Hbelow]. exists b. split; [exact Hb|lra].
Qed.
End Times.

(** *** nondecreasing time axis: weakly ordered timestamps *)
Lemma sorted_sample_w (t : list R) : StronglySorted Rle t -> forall i j a b, (i <= j)%nat ->
  sample t i a -> sample t j b -> a <= b.
Proof.
  induction 1 as [|x t Hs IH Hall]; intros i j a b Hij Ha Hb.
  - destruct i; discriminate.
  - destruct i as [|i].
    + injection Ha as <-. destruct j as [|j]; [injection Hb as <-; lra|].
      cbn in Hb. rewrite Forall_forall in Hall. apply Hall. exact (nth_error_In t j Hb).
    + destruct j as [|j]; [lia|]. apply (IH i j); [lia|exact Ha|exact Hb].
Qed.

Lemma half_between_w (t y : list R) v k i a b tk ti :
  length t = length y -> StronglySorted Rle t -> (k < i)%nat ->
  sample y k a -> sample y i b -> sample t k tk -> sample t i ti ->
  Rltb v a <> Rltb v b ->
  exists x j, crossing t y (Z.of_nat i) v false 0 = Ok (Some x, j) /\ tk <= x <= ti.
Proof.
  intros Hlen Hs Hki Ha Hb Htk Hti Hne.
  pose proof (sample_lt _ _ _ Hb) as Hil.
  destruct (crossing_exists y v (i - k) k a b Ha) as (m & Hm & Hcm);
    [replace (k + (i - k))%nat with i by lia; exact Hb|exact Hne|].
  destruct (crossing_back t y i v ltac:(lia)) as [(j & Hj & Hc & Hn & He)|[Hn He]];
    [|exfalso; apply (Hn m); [lia|exact Hcm]].
  assert (Hkj : (k < j)%nat).
  { destruct (le_lt_dec j k); [|lia]. exfalso. apply (Hn m); [lia|exact Hcm]. }
  apply crosses_straddles in Hc.
  destruct (interp_at_R t y v j Hc Hlen) as (x & Hx & (t1 & t2 & y1 & y2 & Ht1 & Ht2 & _ & _ & _ & _ & Hb1) & _).
  exists x, (Z.of_nat j). split; [congruence|].
  assert (t1 <= t2) by (apply (sorted_sample_w t Hs (j - 1) j); [lia|assumption|assumption]).
  rewrite Rmin_left, Rmax_right in Hb1 by assumption.
  assert (t2 <= ti) by (apply (sorted_sample_w t Hs j i); [lia|assumption|assumption]).
  assert (tk <= t1) by (apply (sorted_sample_w t Hs k (j - 1)); [lia|assumption|assumption]).
  lra.
Qed.

Section WeakTimes.
Variables (t y : list R) (y_rise y_half y_fall : R).
Hypothesis Hlen : length t = length y.
Hypothesis Hst : StronglySorted Rle t.
Hypothesis Hfh : y_fall <= y_half.
Hypothesis Hhr : y_half <= y_rise.

Lemma chain_w : forall l d k a tk,
  alt d l -> StronglySorted lt (map ev_idx l) -> Forall (ev_ok t y y_rise y_half y_fall) l ->
  Forall (fun i => (k < i)%nat) (map ev_idx l) ->
  sample y k a -> sample t k tk -> (if d then a <= y_half else y_half < a) ->
  exists xs, map ev_val l = map Some xs /\ StronglySorted Rle xs /\ Forall (fun x => tk <= x) xs.
Proof.
  induction l as [|e l IH]; intros d k a tk Halt Hso Hok Hk Ha Htk Hside.
  - exists []. repeat split; constructor.
  - destruct Halt as [Hd Halt]. cbn [map] in Hso, Hk.
    inversion Hso as [|? ? Hso' Hall]; subst. inversion Hok as [|? ? He Hok']; subst.
    inversion Hk as [|? ? Hke Hk']; subst.
    destruct He as (Hi & (j & Hcr) & b & Hb & Hthr).
    destruct (sample_ex t (ev_idx e) ltac:(lia)) as [ti Hti].
    cbn in Hthr.
    assert (Hstrict : if ev_rise e then y_half < b else b < y_half \/ (b < y_fall)).
    { destruct (ev_rise e); apply Rltb_true in Hthr; [lra|right; lra]. }
    assert (Hopp : Rltb y_half a <> Rltb y_half b).
    { destruct (ev_rise e).
      - rewrite (proj2 (Rltb_false y_half a)) by lra. rewrite (proj2 (Rltb_true y_half b)) by lra. discriminate.
      - rewrite (proj2 (Rltb_true y_half a)) by lra. rewrite (proj2 (Rltb_false y_half b)) by lra. discriminate. }
    destruct (half_between_w t y y_half k (ev_idx e) a b tk ti Hlen Hst Hke Ha Hb Htk Hti Hopp)
      as (x & j' & Hcr' & Hx).
    rewrite Hcr in Hcr'. injection Hcr' as Hval _.
    destruct (IH (negb (ev_rise e)) (ev_idx e) b ti Halt Hso' Hok' Hall Hb Hti) as (xs & Hxs & Hsx & Hgt).
    { destruct (ev_rise e); cbn [negb]; lra. }
    exists (x :: xs). cbn [map]. rewrite Hval, Hxs. split; [reflexivity|]. split.
    + constructor; [exact Hsx|]. apply Forall_impl with (2 := Hgt). intros z Hz. lra.
    + constructor; [lra|]. apply Forall_impl with (2 := Hgt). intros z Hz. lra.
Qed.

Lemma edge_times_w r f y0 : sample y 0 y0 -> edges t y y_rise y_half y_fall = Ok (r, f) ->
  let l := if Rltb y0 y_fall then interleave r f else interleave f r in
  (exists xs, l = map Some xs /\ StronglySorted Rle xs) \/
  (y_fall <= y0 <= y_half /\
   exists i xs, l = None :: map Some xs /\ StronglySorted Rle xs /\
     (1 <= i)%nat /\ (exists b, sample y i b /\ b < y_fall) /\
     forall k a, (k < i)%nat -> sample y k a -> a <= y_half).
Proof.
  intros H0 He l.
  destruct (edges_events t y y_rise y_half y_fall r f y0 H0 He) as (ev & Halt & Hso & Hok & -> & ->).
  assert (Hl : l = map ev_val ev).
  { rewrite (alt_interleave ev _ Halt). unfold l. cbn. destruct (Rltb y0 y_fall); reflexivity. }
  clearbody l. subst l. cbn in Halt.
  pose proof (sample_lt _ _ _ H0) as Hy0.
  destruct (sample_ex t 0 ltac:(lia)) as [t0 Ht0].
  assert (Hpos : Forall (fun i => (0 < i)%nat) (map ev_idx ev)).
  { apply Forall_forall. intros i Hi. apply in_map_iff in Hi. destruct Hi as (e & <- & Hin).
    rewrite Forall_forall in Hok. destruct (Hok e Hin) as (H1 & _). lia. }
  destruct (Rltb y0 y_fall) eqn:E; [apply Rltb_true in E|apply Rltb_false in E].
  - left. destruct (chain_w ev true 0 y0 t0 Halt Hso Hok Hpos H0 Ht0) as (xs & H1 & H2 & _); [lra|].
    exists xs. auto.
  - destruct (Rlt_le_dec y_half y0) as [Hy|Hy].
    + left. destruct (chain_w ev false 0 y0 t0 Halt Hso Hok Hpos H0 Ht0) as (xs & H1 & H2 & _); [lra|].
      exists xs. auto.
    + destruct ev as [|e ev].
      * left. exists []. split; [reflexivity|constructor].
      * destruct Halt as [Hd Halt]. cbn [map] in Hso.
        inversion Hso as [|? ? Hso' Hall]; subst. inversion Hok as [|? ? Hoke Hok']; subst.
        destruct Hoke as (Hi & (j & Hcr) & b & Hb & Hthr). rewrite Hd in * .
        cbn in Hthr. apply Rltb_true in Hthr.
        destruct (sample_ex t (ev_idx e) ltac:(lia)) as [ti Hti].
        destruct (chain_w ev true (ev_idx e) b ti Halt Hso' Hok' Hall Hb Hti) as (xs & Hxs & Hsx & Hgt); [lra|].
        destruct (crossing_back t y (ev_idx e) y_half ltac:(lia)) as [(j' & Hj' & Hc & Hn & Hcr')|[Hn Hcr']].
        -- left. apply crosses_straddles in Hc.
           destruct (interp_at_R t y y_half j' Hc Hlen) as (x & Hx & (t1 & t2 & y1 & y2 & Ht1 & Ht2 & _ & _ & _ & _ & Hb1) & _).
           rewrite Hcr, Hx in Hcr'. injection Hcr' as Hval _.
           exists (x :: xs). cbn [map]. rewrite Hval, Hxs. split; [reflexivity|].
           constructor; [exact Hsx|]. apply Forall_impl with (2 := Hgt). intros z Hz.
           assert (t1 <= t2) by (apply (sorted_sample_w t Hst (j' - 1) j'); [lia|assumption|assumption]).
           rewrite Rmin_left, Rmax_right in Hb1 by assumption.
           assert (t2 <= ti) by (apply (sorted_sample_w t Hst j' (ev_idx e)); [lia|assumption|assumption]).
           lra.
        -- right. split; [lra|]. rewrite Hcr in Hcr'. injection Hcr' as Hval _.
           exists (ev_idx e), xs. cbn [map]. rewrite Hval, Hxs. split; [reflexivity|]. split; [exact Hsx|].
           assert (Hbelow : forall k a, (k < ev_idx e)%nat -> sample y k a -> a <= y_half).
           { intros k a Hk Ha. destruct (Rle_lt_dec a y_half) as [|Hgt2]; [assumption|]. exfalso.
             destruct (crossing_exists y y_half (ev_idx e - k) k a b Ha) as (m & Hm & Hcm).
             - replace (k + (ev_idx e - k))%nat with (ev_idx e) by lia. exact Hb.
             - rewrite (proj2 (Rltb_true y_half a)) by lra. rewrite (proj2 (Rltb_false y_half b)) by lra. discriminate.
             - apply (Hn m); [lia|exact Hcm]. }
           split; [lia|]. split; [|exact Hbelow]. exists b. split; [exact Hb|lra].
Qed.
End WeakTimes.
