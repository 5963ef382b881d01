From Coq Require Import String ZArith Bool QArith Qabs Lia Lqa List.
Import ListNotations.
From Verif Require Import Base PyStr PyStrProofs StrformatModel.
Local Open Scope Z_scope.

(** ** metric_prefix *)
Lemma pick_spec rnd v thr l : match pick rnd v thr l with
  | Some (p, f) => exists l1 l2, l = l1 ++ (p, f) :: l2 /\ (rnd (thr * f) <= Qabs' v)%Q /\
                     Forall (fun e => (Qabs' v < rnd (thr * snd e))%Q) l1
  | None => Forall (fun e => (Qabs' v < rnd (thr * snd e))%Q) l
  end.
Proof.
  induction l as [|[p f] l IH]; cbn [pick]; [constructor|].
  destruct (Qle_bool (rnd (thr * f)%Q) (Qabs' v)) eqn:E.
  - apply Qle_bool_iff in E. exists [], l. split; [reflexivity|]. split; [exact E|constructor].
  - assert (Hlt : (Qabs' v < rnd (thr * f))%Q).
    { apply Qnot_le_lt. intros H. apply Qle_bool_iff in H. congruence. }
    destruct (pick rnd v thr l) as [[p' f']|].
    + destruct IH as (l1 & l2 & -> & H1 & H2). exists ((p, f) :: l1), l2. split; [reflexivity|].
      split; [exact H1|]. constructor; [exact Hlt|exact H2].
    + constructor; [exact Hlt|exact IH].
Qed.

(** Rounding within a relative 1e-9 (double arithmetic: 2^-53). *)
Definition close_rnd (rnd : Q -> Q) : Prop := forall x, (Qabs (rnd x - x) <= (1 # 1000000000) * Qabs x)%Q.

Lemma fmt_width w p q k : (1 <= k)%nat -> (p <> 0)%nat ->
  (Qabs' q * inject_Z (pow10 p) + (1 # 2) < inject_Z (10 ^ Z.of_nat k * pow10 p))%Q ->
  ((if Qneg q then 1 else 0) + k + S p <= w)%nat -> length (fmt_f w p (Fin q)) = w.
Proof.
  intros Hk Hp Hq Hw. unfold fmt_f. rewrite lpad_length.
  pose proof (fixed_length p q k Hk Hq). destruct p; [contradiction|]. lia.
Qed.

Lemma fmt_read w p q : exists t, parse_dec (fmt_f w p (Fin q)) = Some t /\
  (Qabs (t - q) <= (1 # 2) * Qpow10 (- Z.of_nat p))%Q.
Proof. apply fixed_read. Qed.

(** A table of nine one-character prefixes whose values are within 1e-9 of
    the powers of ten (the doubles 1e12 ... 1e-12). *)
Definition near_default (tab : list (pystr * Q)) : Prop :=
  Forall2 (fun e d => fst e = fst d /\
    (Qabs (snd e - Qpow10 (snd d)) <= (1 # 1000000000) * Qpow10 (snd d))%Q) tab default_prefixes.

Lemma Qabs'_cases q : (Qneg q = true /\ q < 0 /\ Qabs' q == - q)%Q \/ (Qneg q = false /\ 0 <= q /\ Qabs' q == q)%Q.
Proof.
  unfold Qneg, Qabs'. destruct q as [n d]. cbn. destruct (n <? 0) eqn:E; [left|right];
    [apply Z.ltb_lt in E|apply Z.ltb_ge in E]; (split; [reflexivity|]); unfold Qlt, Qle, Qeq; cbn; split; lia.
Qed.

Lemma fdiv_ok rnd v f : (0 < f)%Q -> fdiv rnd v f = Ok (rnd (v / f)%Q).
Proof.
  intros H. unfold fdiv. replace (Qnum f =? 0) with false; [reflexivity|].
  symmetry. apply Z.eqb_neq. unfold Qlt in H. cbn in H. lia.
Qed.

(** bound on the mantissa from a bound on the value *)
Lemma mantissa_bound rnd v f P (B : Q) : close_rnd rnd -> (0 < P)%Q ->
  (Qabs (f - P) <= (1 # 1000000000) * P)%Q -> (0 <= B)%Q -> (Qabs' v <= B * P)%Q ->
  (Qabs' (rnd (v / f)%Q) <= B * (1 + (1 # 1000000)))%Q /\ (Qneg (rnd (v / f)%Q) = true -> (v < 0)%Q).
Proof.
  intros Hr HP Hf HB Hv. apply Qabs_Qle_condition in Hf.
  assert (Hfp : (0 < f)%Q) by lra.
  pose proof (Hr (v / f)%Q) as Hm. set (x := (v / f)%Q) in * .
  assert (Ex : (x * f == v)%Q) by (unfold x; field; lra).
  set (m := rnd x) in * .
  assert (Hxb : (Qabs' x <= B * (1 + (1 # 10000000)))%Q).
  { assert (Exa : (Qabs' x * f == Qabs' v)%Q).
    { rewrite !Qabs'_abs, <- Ex, Qabs_Qmult. rewrite (Qabs_pos f) by lra. reflexivity. }
    apply Qnot_lt_le. intros Hc.
    assert (B * (1 + (1 # 10000000)) * f < Qabs' x * f)%Q by (apply Qmult_lt_r; lra).
    rewrite Exa in H. assert (B * P <= B * ((1 + (1 # 10000000)) * f))%Q; [|lra].
    destruct (Qlt_le_dec 0 B) as [Hb|Hb]; [apply Qmult_le_l; [exact Hb|lra]|].
    assert (EB : (B == 0)%Q) by lra. rewrite EB. lra. }
  rewrite (Qabs'_abs x) in Hxb.
  assert (Hmx : (Qabs m <= Qabs x * (1 + (1 # 1000000000)))%Q).
  { setoid_replace m with (x + (m - x))%Q by ring. eapply Qle_trans; [apply Qabs_triangle|]. lra. }
  split.
  - rewrite Qabs'_abs. nra.
  - intros Hn. destruct (Qabs'_cases m) as [(_ & Hm0 & _)|(Hm0 & _)]; [|congruence].
    apply Qnot_le_lt. intros Hv0. assert (Hx0 : (0 <= x)%Q).
    { apply Qnot_lt_le. intros Hc. assert (x * f < 0 * f)%Q by (apply Qmult_lt_r; lra). lra. }
    rewrite (Qabs_pos x Hx0) in Hm. apply Qabs_Qle_condition in Hm. lra.
Qed.

Lemma thr_bound rnd f P v : close_rnd rnd -> (0 < P)%Q -> (Qabs (f - P) <= (1 # 1000000000) * P)%Q ->
  (Qabs' v < rnd (2 * f))%Q -> (Qabs' v <= (2001 # 1000) * P)%Q.
Proof.
  intros Hr HP Hf Hv. pose proof (Hr (2 * f)%Q) as H2. apply Qabs_Qle_condition in Hf.
  rewrite (Qabs_pos (2 * f)) in H2 by lra. apply Qabs_Qle_condition in H2. lra.
Qed.

Lemma width_case rnd v f P B w p (unit nm : pystr) k : close_rnd rnd -> (0 < P)%Q ->
  (Qabs (f - P) <= (1 # 1000000000) * P)%Q -> (0 <= B)%Q -> (Qabs' v <= B * P)%Q ->
  (1 <= k)%nat -> (p <> 0)%nat ->
  (B * (1 + (1 # 1000000)) * inject_Z (pow10 p) + (1 # 2) < inject_Z (10 ^ Z.of_nat k * pow10 p))%Q ->
  ((v < 0)%Q -> (1 + k + S p <= w)%nat) -> (k + S p <= w)%nat -> length nm = 1%nat ->
  exists s, bind (fdiv rnd v f) (fun m => Ok (fmt_f w p (Fin m) ++ [32] ++ nm ++ unit)) = Ok s /\
    length s = (w + 2 + length unit)%nat.
Proof.
  intros Hr HP Hf HB Hv Hk Hp Hb Hw1 Hw2 Hnm.
  assert (Hfp : (0 < f)%Q) by (apply Qabs_Qle_condition in Hf; lra).
  rewrite (fdiv_ok rnd v f Hfp). cbn [bind]. eexists. split; [reflexivity|].
  destruct (mantissa_bound rnd v f P B Hr HP Hf HB Hv) as [Hm Hn].
  rewrite !app_length. rewrite (fmt_width w p (rnd (v / f)%Q) k Hk Hp).
  - rewrite Hnm. cbn [length]. lia.
  - eapply Qle_lt_trans; [|exact Hb]. pose proof (pow10_pos p) as Hpp.
    assert (0 < inject_Z (pow10 p))%Q by (change 0%Q with (inject_Z 0); rewrite <- Zlt_Qlt; lia).
    assert (Qabs' (rnd (v / f)%Q) * inject_Z (pow10 p) <= B * (1 + (1 # 1000000)) * inject_Z (pow10 p))%Q
      by (apply Qmult_le_r; assumption). lra.
  - destruct (Qneg (rnd (v / f)%Q)); [specialize (Hw1 (Hn eq_refl)); lia|lia].
Qed.

Ltac q_small := unfold pow10; vm_compute; reflexivity.

Lemma metric_width rnd tab v unit : close_rnd rnd -> near_default tab ->
  (- (99 # 1) * Qpow10 14 <= v)%Q -> (v <= (99 # 1) * Qpow10 15)%Q ->
  exists s, metric_prefix rnd (Fin v) unit (8, 2)%nat (8, 3)%nat 2 tab = Ok s /\ length s = (10 + length unit)%nat.
Proof.
  intros Hr Hn Hlo Hhi. unfold near_default, default_prefixes in Hn.
  repeat match goal with H : Forall2 _ _ (_ :: _) |- _ => inversion H; clear H; subst end.
  match goal with H : Forall2 _ _ [] |- _ => inversion H; clear H; subst end.
  repeat match goal with H : _ /\ _ |- _ => destruct H end.
  repeat match goal with x : (pystr * Q)%type |- _ => destruct x as [? ?] end.
  cbn [fst snd] in * . subst.
  rename q into a8, q0 into a7, q1 into a6, q2 into a5, q3 into a4, q4 into a3, q5 into a2, q6 into a1, q7 into a0.
  rename a0 into q, a1 into q0, a2 into q1, a3 into q2, a4 into q3, a5 into q4, a6 into q5, a7 into q6, a8 into q7.
  unfold metric_prefix. cbn [pick fst snd].
  destruct (Qle_bool (rnd (2 * q)%Q) (Qabs' v)) eqn:E0.
  { (* T *)
    destruct (Qabs'_cases v) as [(Hneg & Hv0 & Ea)|(Hneg & Hv0 & Ea)].
    - eapply (width_case rnd v q (Qpow10 12) (9900 # 1) 8 2 unit (str "T") 4); try eassumption; try lia; try reflexivity.
      + discriminate.
      + rewrite Ea. change (Qpow10 12) with (1000000000000 # 1)%Q. change (Qpow10 14) with (100000000000000 # 1)%Q in Hlo. lra.
    - eapply (width_case rnd v q (Qpow10 12) (99000 # 1) 8 2 unit (str "T") 5); try eassumption; try lia; try reflexivity.
      + discriminate.
      + rewrite Ea. change (Qpow10 12) with (1000000000000 # 1)%Q. change (Qpow10 15) with (1000000000000000 # 1)%Q in Hhi. lra.
      + intros. lra. }
  assert (Hstep : forall f P, (Qabs (f - P) <= (1 # 1000000000) * P)%Q -> (0 < P)%Q ->
     Qle_bool (rnd (2 * f)%Q) (Qabs' v) = false -> (Qabs' v <= (2001 # 1000) * P)%Q).
  { intros f P Hf HP Hb. apply (thr_bound rnd f P v Hr HP Hf). apply Qnot_le_lt. intros Hc.
    apply Qle_bool_iff in Hc. congruence. }
  assert (Hcase : forall f P f' P' nm, length nm = 1%nat -> (0 < P)%Q -> (Qabs (f - P) <= (1 # 1000000000) * P)%Q ->
     (P' == 1000 * P)%Q -> (Qabs (f' - P') <= (1 # 1000000000) * P')%Q ->
     Qle_bool (rnd (2 * f')%Q) (Qabs' v) = false ->
     exists s, bind (fdiv rnd v f) (fun m => Ok (fmt_f 8 2 (Fin m) ++ [32] ++ nm ++ unit)) = Ok s /\
       length s = (10 + length unit)%nat).
  { intros f P f' P' nm Hnm HP Hf HP' Hf' Hb.
    apply (width_case rnd v f P (2001 # 1) 8 2 unit nm 4); try assumption; try lia; try reflexivity.
    - discriminate.
    - specialize (Hstep f' P' Hf' ltac:(lra) Hb). lra. }
  Ltac hc Hcase nm P P' := eapply (Hcase _ P _ P' nm);
    [reflexivity|reflexivity|eassumption|reflexivity| |eassumption]; assumption.
  destruct (Qle_bool (rnd (2 * q0)%Q) (Qabs' v)) eqn:E1. { hc Hcase (str "G") (Qpow10 9) (Qpow10 12). }
  destruct (Qle_bool (rnd (2 * q1)%Q) (Qabs' v)) eqn:E2. { hc Hcase (str "M") (Qpow10 6) (Qpow10 9). }
  destruct (Qle_bool (rnd (2 * q2)%Q) (Qabs' v)) eqn:E3. { hc Hcase (str "k") (Qpow10 3) (Qpow10 6). }
  destruct (Qle_bool (rnd (2 * q3)%Q) (Qabs' v)) eqn:E4. { hc Hcase (str " ") (Qpow10 0) (Qpow10 3). }
  destruct (Qle_bool (rnd (2 * q4)%Q) (Qabs' v)) eqn:E5. { hc Hcase (str "m") (Qpow10 (-3)) (Qpow10 0). }
  destruct (Qle_bool (rnd (2 * q5)%Q) (Qabs' v)) eqn:E6. { hc Hcase [181] (Qpow10 (-6)) (Qpow10 (-3)). }
  destruct (Qle_bool (rnd (2 * q6)%Q) (Qabs' v)) eqn:E7. { hc Hcase (str "n") (Qpow10 (-9)) (Qpow10 (-6)). }
  destruct (Qle_bool (rnd (2 * q7)%Q) (Qabs' v)) eqn:E8. { hc Hcase (str "p") (Qpow10 (-12)) (Qpow10 (-9)). }
  assert (Hs : (Qabs' v <= (2001 # 1000) * Qpow10 (-12))%Q) by (apply (Hstep q7); [assumption|reflexivity|assumption]).
  change (getz _ (-1)) with (Ok (str "p", q7)). cbn [bind].
  apply (width_case rnd v q7 (Qpow10 (-12)) (2001 # 1000) 8 3 unit (str "p") 1); try assumption; try lia; try reflexivity.
  discriminate.
Qed.

Lemma metric_nonfinite rnd unit tab v : (forall q, v <> Fin q) ->
  exists s, metric_prefix rnd v unit (8, 2)%nat (8, 3)%nat 2 tab = Ok s /\ length s = (10 + length unit)%nat.
Proof.
  intros H. destruct v as [q| | |]; [exfalso; apply (H q); reflexivity| | |];
    (eexists; split; [reflexivity|]); rewrite !app_length; reflexivity.
Qed.

(** What the text says. *)
Lemma metric_decode rnd v unit w p w' p' thr tab s : close_rnd rnd -> (forall e, In e tab -> (0 < snd e)%Q) ->
  metric_prefix rnd (Fin v) unit (w, p) (w', p') thr tab = Ok s ->
  exists i nm f text t,
    nth_error tab i = Some (nm, f) /\ s = text ++ [32] ++ nm ++ unit /\ parse_dec text = Some t /\
    (forall j nm' f', (j < i)%nat -> nth_error tab j = Some (nm', f') -> (Qabs' v < rnd (thr * f'))%Q) /\
    (((rnd (thr * f) <= Qabs' v)%Q /\
      (Qabs (t - v / f) <= (1 # 2) * Qpow10 (- Z.of_nat p) + (1 # 1000000000) * Qabs (v / f))%Q) \/
     (i + 1 = length tab)%nat /\ (Qabs' v < rnd (thr * f))%Q /\
      (Qabs (t - v / f) <= (1 # 2) * Qpow10 (- Z.of_nat p') + (1 # 1000000000) * Qabs (v / f))%Q).
Proof.
  intros Hr Hpos. unfold metric_prefix. pose proof (pick_spec rnd v thr tab) as Hp. cbn [fst snd].
  assert (Hread : forall w p f, (0 < f)%Q -> exists t, parse_dec (fmt_f w p (Fin (rnd (v / f)%Q))) = Some t /\
    (Qabs (t - v / f) <= (1 # 2) * Qpow10 (- Z.of_nat p) + (1 # 1000000000) * Qabs (v / f))%Q).
  { intros w0 p0 f Hf. destruct (fmt_read w0 p0 (rnd (v / f)%Q)) as (t & Ht & Hb). exists t. split; [exact Ht|].
    setoid_replace (t - v / f)%Q with ((t - rnd (v / f)%Q) + (rnd (v / f)%Q - v / f))%Q by ring.
    eapply Qle_trans; [apply Qabs_triangle|]. pose proof (Hr (v / f)%Q). lra. }
  destruct (pick rnd v thr tab) as [[nm f]|].
  - destruct Hp as (l1 & l2 & -> & Ht & Hall).
    assert (Hf : (0 < f)%Q) by (apply (Hpos (nm, f)); apply in_or_app; right; left; reflexivity).
    rewrite (fdiv_ok rnd v f Hf). cbn [bind]. intros [= <-].
    destruct (Hread w p f Hf) as (t & Hpt & Hb).
    exists (length l1), nm, f, (fmt_f w p (Fin (rnd (v / f)%Q))), t.
    split; [rewrite nth_error_app2, Nat.sub_diag by lia; reflexivity|]. split; [reflexivity|]. split; [exact Hpt|].
    split; [|left; split; assumption].
    intros j nm' f' Hj He. rewrite nth_error_app1 in He by exact Hj. apply nth_error_In in He.
    rewrite Forall_forall in Hall. apply (Hall _ He).
  - destruct tab as [|e0 tab] using rev_ind; [discriminate|]. clear IHtab.
    assert (Eg : getz (tab ++ [e0]) (-1) = Ok e0).
    { unfold getz. cbn [Z.leb]. change (0 <=? -1) with false. cbn iota. rewrite app_length. cbn [length].
      replace (0 <=? -1 + Z.of_nat (length tab + 1)) with true by (symmetry; apply Z.leb_le; lia).
      replace (Z.to_nat (-1 + Z.of_nat (length tab + 1))) with (length tab) by lia.
      unfold get. rewrite nth_error_app2, Nat.sub_diag by lia. reflexivity. }
    rewrite Eg. cbn [bind]. destruct e0 as [nm f].
    assert (Hf : (0 < f)%Q) by (apply (Hpos (nm, f)); apply in_or_app; right; left; reflexivity).
    rewrite (fdiv_ok rnd v f Hf). cbn [bind]. intros [= <-].
    destruct (Hread w' p' f Hf) as (t & Hpt & Hb).
    exists (length tab), nm, f, (fmt_f w' p' (Fin (rnd (v / f)%Q))), t.
    split; [rewrite nth_error_app2, Nat.sub_diag by lia; reflexivity|]. split; [reflexivity|]. split; [exact Hpt|].
    rewrite Forall_forall in Hp. split.
    + intros j nm' f' Hj He. apply nth_error_In in He. apply (Hp _ He).
    + right. split; [rewrite app_length; reflexivity|]. split; [|exact Hb].
      apply (Hp (nm, f)). apply in_or_app. right; left; reflexivity.
Qed.

Lemma round_half_even_tie q z : (q == inject_Z z + (1 # 2))%Q -> round_half_even q = if Z.even z then z else z + 1.
Proof.
  intros Hq. destruct q as [n d]. unfold Qeq, Qplus, inject_Z in Hq. cbn [Qnum Qden] in Hq.
  unfold round_half_even. cbn [Qnum Qden]. set (D := Zpos d) in * . assert (HD : 0 < D) by reflexivity.
  assert (E : 2 * n = 2 * z * D + D) by lia.
  assert (Ed : n / D = z). { symmetry. apply (Z.div_unique_pos n D z (n - z * D)); lia. }
  assert (Em : 2 * (n mod D) = D). { rewrite Z.mod_eq by lia. rewrite Ed. lia. }
  rewrite Em, Ed, Z.ltb_irrefl. reflexivity.
Qed.

(** ** time_str *)
Lemma divmod60_spec q d r : divmod60 q = (d, r) ->
  Qden r = Qden q /\ Qnum r = Qnum q - d * 60 * Zpos (Qden q) /\ 0 <= Qnum r < 60 * Zpos (Qden q).
Proof.
  intros E. pose proof (f_equal fst E) as E1. pose proof (f_equal snd E) as E2. clear E.
  unfold divmod60 in E1, E2. cbv zeta in E1, E2. cbn [fst snd] in E1, E2. subst d.
  remember (Zpos (Qden q)) as d eqn:Hd. assert (HD : 0 < d) by (rewrite Hd; reflexivity).
  rewrite <- E2. cbn [Qnum Qden]. split; [reflexivity|]. split; [reflexivity|].
  pose proof (Z.div_mod (Qnum q) (60 * d) ltac:(lia)). pose proof (Z.mod_pos_bound (Qnum q) (60 * d) ltac:(lia)).
  replace (Qnum q / (60 * d) * 60 * d) with (60 * d * (Qnum q / (60 * d))) by ring. lia.
Qed.

(** floor of a rational *)
Definition qfloor (q : Q) : Z := Qnum q / Zpos (Qden q).

Lemma time_int d : exists m s,
  m * 60 + s = qfloor d /\ 0 <= s < 60 /\
  time_str d false false = zpad 2 (str_int m) ++ [58] ++ zpad 2 (str_int s) /\
  time_str d false true = zpad 2 (str_int (m / 60)) ++ [58] ++ zpad 2 (str_int (m mod 60)) ++ [58] ++ zpad 2 (str_int s).
Proof.
  unfold time_str. destruct (divmod60 d) as [m r] eqn:E. destruct (divmod60_spec d m r E) as (H1 & H2 & H3).
  set (D := Zpos (Qden d)) in * . assert (HD : 0 < D) by reflexivity.
  exists m, (Qnum r / Zpos (Qden r)). rewrite H1. fold D. unfold qfloor. fold D.
  assert (Hs : Qnum r / D = Qnum d / D - m * 60).
  { rewrite H2. replace (Qnum d - m * 60 * D) with (Qnum d + (- (m * 60)) * D) by ring.
    rewrite Z.div_add by lia. ring. }
  split; [lia|]. split.
  - split; [apply Z.div_pos; lia|]. apply Z.div_lt_upper_bound; lia.
  - cbn [app]. rewrite <- !app_assoc. split; reflexivity.
Qed.

(** Two-digit fields. *)
Lemma field_length s : 0 <= s < 100 -> length (zpad 2 (str_int s)) = 2%nat.
Proof.
  intros H. unfold str_int. replace (s <? 0) with false by (symmetry; apply Z.ltb_ge; lia).
  destruct (digits_spec s ltac:(lia)) as (H1 & _ & H3 & _).
  pose proof (digits_length s 2 ltac:(cbn; lia) ltac:(lia)) as HL.
  assert (Hz : zpad 2 (dchars (digits s)) = lpad 2 48 (dchars (digits s))).
  { destruct (dchars_head _ H1 H3) as (c & x & -> & _ & Hc & _). unfold zpad.
    destruct c as [|p|p]; try reflexivity. do 6 (destruct p as [p|p|]; try reflexivity); contradiction. }
  rewrite Hz, lpad_length, dchars_length. lia.
Qed.

Definition centi (c : Z) : pystr := zpad 2 (str_int (c / 100)) ++ [46] ++ zpad 2 (str_int (c mod 100)).

Lemma zpad_pos w s : 0 <= s -> zpad w (dchars (digits s)) = lpad w 48 (dchars (digits s)).
Proof.
  intros Hs. destruct (digits_spec s Hs) as (H1 & _ & H3 & _).
  destruct (dchars_head _ H1 H3) as (c & x & -> & _ & Hc & _). unfold zpad.
  destruct c as [|p|p]; try reflexivity. do 6 (destruct p as [p|p|]; try reflexivity); contradiction.
Qed.
Lemma str_int_pos s : 0 <= s -> str_int s = dchars (digits s).
Proof. intros H. unfold str_int. replace (s <? 0) with false by (symmetry; apply Z.ltb_ge; lia). reflexivity. Qed.

(** Seconds with two decimals in a five character field. *)
Lemma seconds_text r : (0 <= r)%Q -> Qneg r = false -> (r < 60)%Q ->
  exists c, zpad 5 (fixed 2 r) = centi c /\ 0 <= c <= 6000 /\
    (Qabs (inject_Z c - 100 * r) <= 1 # 2)%Q.
Proof.
  intros H0 Hn H60. exists (fixed_n 2 r). pose proof (fixed_n_nonneg 2 r) as Hc.
  assert (Hb : (Qabs (inject_Z (fixed_n 2 r) - 100 * r) <= 1 # 2)%Q).
  { unfold fixed_n. pose proof (round_half_even_Q (Qabs' r * inject_Z (pow10 2))) as Hr.
    assert (Ea : (Qabs' r == r)%Q) by (rewrite Qabs'_abs; apply Qabs_pos; exact H0).
    set (z := round_half_even (Qabs' r * inject_Z (pow10 2))) in * . rewrite Ea in Hr.
    change (inject_Z (pow10 2)) with (100 # 1)%Q in Hr.
    setoid_replace (inject_Z z - 100 * r)%Q with (inject_Z z - r * (100 # 1))%Q by ring. exact Hr. }
  assert (Hle : fixed_n 2 r <= 6000).
  { apply half_le. apply Qabs_Qle_condition in Hb. change (inject_Z 6000) with (6000 # 1)%Q. lra. }
  split; [|split; [lia|exact Hb]].
  rewrite fixed_eq, Hn. cbn [app]. unfold mant, centi. change (pow10 2) with 100.
  set (c := fixed_n 2 r) in * .
  assert (H1 : 0 <= c / 100 < 100) by (split; [apply Z.div_pos; lia|apply Z.div_lt_upper_bound; lia]).
  assert (H2 : 0 <= c mod 100 < 100) by (apply Z.mod_pos_bound; lia).
  rewrite !str_int_pos, !zpad_pos by lia.
  destruct (digits_spec (c / 100) ltac:(lia)) as (D1 & _ & D3 & _).
  pose proof (digits_length (c / 100) 2 ltac:(change (10 ^ Z.of_nat 2) with 100; lia) ltac:(lia)) as L1.
  pose proof (digits_length (c mod 100) 2 ltac:(change (10 ^ Z.of_nat 2) with 100; lia) ltac:(lia)) as L2.
  set (A := dchars (digits (c / 100))) in * . set (B := lpad 2 48 (dchars (digits (c mod 100)))) in * .
  assert (LB : length B = 2%nat) by (unfold B; rewrite lpad_length, dchars_length; lia).
  assert (LA : (length A <= 2)%nat) by (unfold A; rewrite dchars_length; lia).
  assert (Ez : zpad 5 (A ++ 46 :: B) = lpad 5 48 (A ++ 46 :: B)).
  { destruct (dchars_head _ D1 D3) as (x & y & E & _ & Hx & _). fold A in E. rewrite E. cbn [app]. unfold zpad.
    destruct x as [|p|p]; try reflexivity. do 6 (destruct p as [p|p|]; try reflexivity); contradiction. }
  rewrite Ez. unfold lpad. rewrite app_length. cbn [length]. rewrite LB.
  replace (5 - (length A + 3))%nat with (2 - length A)%nat by lia. rewrite <- app_assoc. reflexivity.
Qed.

Lemma time_sub d : exists m c,
  (Qabs (inject_Z m * 60 + inject_Z c * (1 # 100) - d) <= 1 # 200)%Q /\ 0 <= c <= 6000 /\
  time_str d true false = zpad 2 (str_int m) ++ [58] ++ centi c /\
  time_str d true true = zpad 2 (str_int (m / 60)) ++ [58] ++ zpad 2 (str_int (m mod 60)) ++ [58] ++ centi c /\
  (c = 6000 <-> (inject_Z m * 60 + (59995 # 1000) <= d)%Q) /\ (inject_Z m * 60 <= d < inject_Z m * 60 + 60)%Q.
Proof.
  unfold time_str. destruct (divmod60 d) as [m r] eqn:E. destruct (divmod60_spec d m r E) as (H1 & H2 & H3).
  assert (Er : (r == d - inject_Z m * 60)%Q).
  { unfold Qeq, Qminus, Qplus, Qopp, Qmult, inject_Z. cbn [Qnum Qden]. rewrite H1, H2. lia. }
  assert (Hr0 : (0 <= r)%Q) by (unfold Qle; cbn; lia).
  assert (Hr60 : (r < 60)%Q) by (unfold Qlt; cbn [Qnum Qden]; rewrite H1; lia).
  assert (Hn : Qneg r = false) by (unfold Qneg; apply Z.ltb_ge; lia).
  destruct (seconds_text r Hr0 Hn Hr60) as (c & Et & Hc & Hb). exists m, c.
  assert (Hb' := Hb). apply Qabs_Qle_condition in Hb'.
  split; [apply Qabs_Qle_condition; lra|]. split; [exact Hc|].
  rewrite Et. cbn [app]. rewrite <- !app_assoc. split; [reflexivity|]. split; [reflexivity|]. split; [|lra].
  split.
  - intros ->. change (inject_Z 6000) with (6000 # 1)%Q in Hb'. lra.
  - intros Hd. assert (Hc2 : ((11998 # 2) <= inject_Z c)%Q) by lra.
    assert (5999 <= c). { unfold Qle in Hc2. cbn in Hc2. lia. }
    destruct (Z.eq_dec c 5999) as [->|]; [|lia]. exfalso.
    change (inject_Z 5999) with (5999 # 1)%Q in Hb'.
    assert (Et5 : (100 * r == 5999 + (1 # 2))%Q) by lra.
    assert (Hn6 : fixed_n 2 r = 6000).
    { unfold fixed_n. rewrite (round_half_even_tie _ 5999); [reflexivity|].
      rewrite Qabs'_abs, (Qabs_pos r Hr0). change (inject_Z (pow10 2)) with (100 # 1)%Q.
      change (inject_Z 5999) with (5999 # 1)%Q. lra. }
    assert (Hlen := f_equal (fun s => nth_error s 0) Et). cbn beta in Hlen.
    rewrite fixed_eq, Hn, Hn6 in Hlen. vm_compute in Hlen. discriminate.
Qed.
