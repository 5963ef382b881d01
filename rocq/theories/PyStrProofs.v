From Coq Require Import String ZArith Bool QArith Qabs Qpower Lia Lqa List.
Import ListNotations.
From Verif Require Import PyStr.
Local Open Scope Z_scope.

(** ** digits *)
Definition digit_list (ds : list Z) : Prop := Forall (fun d => 0 <= d <= 9) ds.

Lemma fold_value ds : forall a, fold_left (fun a d => 10 * a + d) ds a = a * 10 ^ Z.of_nat (length ds) + value10 ds.
Proof.
  unfold value10. induction ds as [|d ds IH]; intros a; cbn [fold_left length]; [change (10 ^ Z.of_nat 0) with 1; lia|].
  rewrite IH. rewrite (IH (10 * 0 + d)). rewrite Nat2Z.inj_succ, Z.pow_succ_r by lia. ring.
Qed.
Lemma value10_app a b : value10 (a ++ b) = value10 a * 10 ^ Z.of_nat (length b) + value10 b.
Proof. unfold value10 at 1. rewrite fold_left_app, fold_value. reflexivity. Qed.
Lemma value10_cons d ds : value10 (d :: ds) = d * 10 ^ Z.of_nat (length ds) + value10 ds.
Proof. change (d :: ds) with ([d] ++ ds). rewrite value10_app. unfold value10 at 1. cbn [fold_left]. ring. Qed.
Lemma value10_range ds : digit_list ds -> 0 <= value10 ds < 10 ^ Z.of_nat (length ds).
Proof.
  induction 1 as [|d ds Hd _ IH]; [cbn; lia|]. rewrite value10_cons. cbn [length].
  rewrite Nat2Z.inj_succ, Z.pow_succ_r by lia. nia.
Qed.
Lemma value10_zeros k ds : value10 (repeat 0 k ++ ds) = value10 ds.
Proof. induction k as [|k IH]; [reflexivity|]. cbn [repeat app]. rewrite value10_cons, IH. lia. Qed.

Lemma digits_fuel_spec fuel : forall n acc, 0 <= n -> (Z.to_nat (Z.log2 n) <= fuel)%nat ->
  exists ds, digits_fuel fuel n acc = ds ++ acc /\ digit_list ds /\ value10 ds = n /\ ds <> [] /\
    (n <> 0 -> exists d ds', ds = d :: ds' /\ d <> 0).
Proof.
  induction fuel as [|f IH]; intros n acc Hn Hf.
  - exists [n]. assert (Hl : Z.log2 n <= 0) by lia.
    assert (n <= 1). { destruct (Z.eq_dec n 0); [lia|]. destruct (Z.log2_spec n) as [_ H]; [lia|].
      assert (Z.log2 n = 0) by (pose proof (Z.log2_nonneg n); lia). rewrite H0 in H. cbn in H. lia. }
    split; [reflexivity|]. split; [repeat constructor; lia|]. split; [cbn; lia|]. split; [discriminate|].
    intros. exists n, []. split; [reflexivity|assumption].
  - cbn [digits_fuel]. destruct (n <? 10) eqn:E.
    + apply Z.ltb_lt in E. exists [n]. split; [reflexivity|]. split; [repeat constructor; lia|].
      split; [cbn; lia|]. split; [discriminate|]. intros. exists n, []. split; [reflexivity|assumption].
    + apply Z.ltb_ge in E. pose proof (Z.div_mod n 10 ltac:(lia)) as Hdm.
      pose proof (Z.mod_pos_bound n 10 ltac:(lia)) as Hm.
      assert (Hd : 1 <= n / 10) by (apply Z.div_le_lower_bound; lia).
      destruct (IH (n / 10) ((n mod 10) :: acc)) as (ds & E1 & E2 & E3 & E4 & E5).
      * lia.
      * assert (Hl : 2 * (n / 10) <= n) by lia.
        assert (Z.log2 (2 * (n / 10)) <= Z.log2 n) by (apply Z.log2_le_mono; exact Hl).
        rewrite Z.log2_double in H by lia. pose proof (Z.log2_nonneg (n / 10)). lia.
      * exists (ds ++ [n mod 10]). rewrite E1, <- app_assoc. split; [reflexivity|].
        split; [apply Forall_app; split; [exact E2|repeat constructor; lia]|].
        split; [rewrite value10_app, E3; unfold value10; cbn [fold_left length]; change (10 ^ Z.of_nat 1) with 10; lia|].
        split; [destruct ds; discriminate|].
        intros _. destruct (E5 ltac:(lia)) as (d & ds' & -> & Hd0). exists d, (ds' ++ [n mod 10]).
        split; [reflexivity|exact Hd0].
Qed.

Lemma digits_spec n : 0 <= n -> digit_list (digits n) /\ value10 (digits n) = n /\ digits n <> [] /\
  (n <> 0 -> exists d ds', digits n = d :: ds' /\ d <> 0).
Proof.
  intros Hn. unfold digits. destruct (digits_fuel_spec (Z.to_nat (Z.log2 n)) n [] Hn (le_n _)) as (ds & -> & H).
  rewrite app_nil_r. exact H.
Qed.

Lemma digits_length n k : 0 <= n < 10 ^ Z.of_nat k -> (1 <= k)%nat -> (length (digits n) <= k)%nat.
Proof.
  intros Hn Hk. destruct (digits_spec n ltac:(lia)) as (H1 & H2 & _ & H4).
  destruct (Z.eq_dec n 0) as [->|Hne]; [cbn; lia|].
  destruct (H4 Hne) as (d & ds & E & Hd). rewrite E in * .
  pose proof (Forall_inv H1) as Hr. pose proof (Forall_inv_tail H1) as Hds. cbn beta in Hr.
  rewrite value10_cons in H2. pose proof (value10_range ds Hds).
  destruct (le_lt_dec (length (d :: ds)) k) as [|Hlt]; [assumption|]. exfalso. cbn [length] in Hlt.
  assert (10 ^ Z.of_nat k <= 10 ^ Z.of_nat (length ds)) by (apply Z.pow_le_mono_r; lia). nia.
Qed.

Lemma dchars_length ds : length (dchars ds) = length ds.
Proof. apply map_length. Qed.
Lemma dchars_app a b : dchars (a ++ b) = dchars a ++ dchars b.
Proof. apply map_app. Qed.

Lemma lpad_dchars w ds : lpad w 48 (dchars ds) = dchars (repeat 0 (w - length ds) ++ ds).
Proof.
  unfold lpad. rewrite dchars_app, dchars_length. f_equal. unfold dchars.
  induction (w - length ds)%nat as [|k IH]; [reflexivity|]. cbn [repeat map]. rewrite IH. reflexivity.
Qed.
Lemma digit_list_pad k ds : digit_list ds -> digit_list (repeat 0 k ++ ds).
Proof.
  intros H. apply Forall_app. split; [|exact H]. apply Forall_forall. intros x Hx. apply repeat_spec in Hx. lia.
Qed.

(** ** scanning *)
Definition no_digit_head (r : pystr) : Prop := match r with [] => True | c :: _ => is_digit c = false end.

Lemma span_dchars ds r : digit_list ds -> no_digit_head r -> span_digits (dchars ds ++ r) = (ds, r).
Proof.
  induction 1 as [|d ds Hd _ IH]; intros Hr.
  - cbn. destruct r as [|c r]; [reflexivity|]. cbn in * . rewrite Hr. reflexivity.
  - cbn [dchars map app span_digits]. fold (dchars ds). unfold is_digit.
    replace (48 <=? 48 + d) with true by (symmetry; apply Z.leb_le; lia).
    replace (48 + d <=? 57) with true by (symmetry; apply Z.leb_le; lia). cbn [andb].
    rewrite (IH Hr). f_equal. f_equal. lia.
Qed.

Lemma parse_nat_dchars ds : digit_list ds -> ds <> [] -> parse_nat (dchars ds) = Some (value10 ds).
Proof.
  intros H Hne. unfold parse_nat. rewrite <- (app_nil_r (dchars ds)), span_dchars by (try assumption; exact I).
  destruct ds; [contradiction|reflexivity].
Qed.

Lemma lstrip_id c s : is_space c = false -> lstrip (c :: s) = c :: s.
Proof. intros H. cbn. rewrite H. reflexivity. Qed.
Lemma strip_id s c l : hd_error s = Some c -> is_space c = false -> last s l = l -> s <> [] -> is_space l = false -> strip s = s.
Proof.
  intros Hh Hc Hl Hne Hl2. destruct s as [|c' s]; [discriminate|]. injection Hh as ->.
  unfold strip. rewrite lstrip_id by exact Hc. unfold rstrip.
  destruct (exists_last Hne) as (s' & x & E). rewrite E in * . rewrite last_last in Hl. subst x.
  rewrite rev_app_distr. cbn [rev app]. rewrite lstrip_id by exact Hl2. cbn [rev].
  rewrite rev_involutive. reflexivity.
Qed.
Lemma strip_spaces k s : strip (repeat 32 k ++ s) = strip s.
Proof. unfold strip. f_equal. induction k as [|k IH]; [reflexivity|]. exact IH. Qed.

(** A numeral: nonempty, begins and ends with printable non-blank characters. *)
Definition tight (s : pystr) : Prop :=
  (exists c s', s = c :: s' /\ is_space c = false) /\ (exists s' c, s = s' ++ [c] /\ is_space c = false).
Lemma tight_strip s : tight s -> strip s = s.
Proof.
  intros [(c & s' & E & Hc) (s2 & l & E2 & Hl)]. apply (strip_id s c l); subst; try assumption; try reflexivity.
  - rewrite E2. apply last_last.
  - discriminate.
Qed.
Lemma digit_not_space d : 0 <= d <= 9 -> is_space (48 + d) = false.
Proof.
  intros H. unfold is_space. replace (48 + d =? 32) with false by (symmetry; apply Z.eqb_neq; lia).
  replace (48 + d <=? 13) with false by (symmetry; apply Z.leb_gt; lia). rewrite andb_false_r. reflexivity.
Qed.
Lemma dchars_last ds : digit_list ds -> ds <> [] -> exists s c, dchars ds = s ++ [c] /\ is_space c = false.
Proof.
  intros H Hne. destruct (exists_last Hne) as (ds' & d & ->). exists (dchars ds'), (48 + d).
  rewrite dchars_app. split; [reflexivity|]. apply Forall_app in H. destruct H as [_ H]. inversion H; subst.
  apply digit_not_space. assumption.
Qed.
Lemma dchars_head ds : digit_list ds -> ds <> [] -> exists c s, dchars ds = c :: s /\ is_space c = false /\ c <> 45 /\ c <> 43.
Proof.
  intros H Hne. destruct ds as [|d ds]; [contradiction|]. inversion H; subst. exists (48 + d), (dchars ds).
  split; [reflexivity|]. split; [apply digit_not_space; assumption|]. lia.
Qed.
Lemma tight_dchars ds : digit_list ds -> ds <> [] -> tight (dchars ds).
Proof.
  intros H Hne. split; [|apply dchars_last; assumption].
  destruct (dchars_head ds H Hne) as (c & s & E & Hc & _). exists c, s. split; assumption.
Qed.
Lemma tight_cons c s : is_space c = false -> tight s -> tight (c :: s).
Proof.
  intros Hc [_ (s2 & l & E & Hl)]. split; [exists c, s; split; [reflexivity|exact Hc]|].
  exists (c :: s2), l. rewrite E. split; [reflexivity|exact Hl].
Qed.
Lemma tight_app a b : tight a -> tight b -> tight (a ++ b).
Proof.
  intros [(c & s & E & Hc) _] [_ (s2 & l & E2 & Hl)]. split.
  - exists c, (s ++ b). rewrite E. split; [reflexivity|exact Hc].
  - exists (a ++ s2), l. rewrite E2, app_assoc. split; [reflexivity|exact Hl].
Qed.

Lemma parse_int_pos ds : digit_list ds -> ds <> [] -> parse_int (dchars ds) = Some (value10 ds).
Proof.
  intros H Hne. unfold parse_int. rewrite tight_strip by (apply tight_dchars; assumption).
  rewrite <- (parse_nat_dchars ds H Hne).
  destruct (dchars_head ds H Hne) as (c & s & -> & _ & H1 & H2).
  destruct c as [|p|p]; try reflexivity. do 6 (destruct p as [p|p|]; try reflexivity); contradiction.
Qed.
Lemma parse_int_neg ds : digit_list ds -> ds <> [] -> parse_int (45 :: dchars ds) = Some (- value10 ds).
Proof.
  intros H Hne. unfold parse_int. rewrite tight_strip by (apply tight_cons; [reflexivity|apply tight_dchars; assumption]).
  rewrite (parse_nat_dchars ds H Hne). reflexivity.
Qed.

Lemma parse_zpad_int w n : parse_int (zpad w (str_int n)) = Some n.
Proof.
  unfold str_int. destruct (n <? 0) eqn:E.
  - apply Z.ltb_lt in E. destruct (digits_spec (- n) ltac:(lia)) as (H1 & H2 & H3 & _).
    cbn [zpad]. rewrite lpad_dchars, parse_int_neg.
    + rewrite value10_zeros, H2. f_equal. lia.
    + apply digit_list_pad. exact H1.
    + destruct (digits (- n)); [contradiction|]. destruct (repeat _ _); discriminate.
  - apply Z.ltb_ge in E. destruct (digits_spec n E) as (H1 & H2 & H3 & _).
    assert (Hz : zpad w (dchars (digits n)) = lpad w 48 (dchars (digits n))).
    { destruct (dchars_head _ H1 H3) as (c & s & -> & _ & Hc & _). unfold zpad.
      destruct c as [|p|p]; try reflexivity. do 6 (destruct p as [p|p|]; try reflexivity); contradiction. }
    rewrite Hz, lpad_dchars, parse_int_pos.
    + rewrite value10_zeros, H2. reflexivity.
    + apply digit_list_pad. exact H1.
    + destruct (digits n); [contradiction|]. destruct (repeat _ _); discriminate.
Qed.
Lemma lpad_short w c s : (w <= length s)%nat -> lpad w c s = s.
Proof. intros H. unfold lpad. replace (w - length s)%nat with 0%nat by lia. reflexivity. Qed.
Lemma parse_str_int n : parse_int (str_int n) = Some n.
Proof.
  rewrite <- (parse_zpad_int 0 n). f_equal. unfold zpad. destruct (str_int n) as [|c s]; [reflexivity|].
  destruct c as [|p|p]; try reflexivity. do 6 (destruct p as [p|p|]; try reflexivity).
Qed.
Lemma lpad_length w c s : length (lpad w c s) = Nat.max w (length s).
Proof. unfold lpad. rewrite app_length, repeat_length. lia. Qed.

(** ** rounding *)
Lemma round_half_even_spec q : 2 * Z.abs (round_half_even q * Zpos (Qden q) - Qnum q) <= Zpos (Qden q).
Proof.
  unfold round_half_even. set (n := Qnum q). set (d := Zpos (Qden q)).
  assert (Hd : 0 < d) by reflexivity.
  pose proof (Z.div_mod n d ltac:(lia)) as H1. pose proof (Z.mod_pos_bound n d Hd) as H2.
  destruct (2 * (n mod d) <? d) eqn:E1; [apply Z.ltb_lt in E1; lia|apply Z.ltb_ge in E1].
  destruct (d <? 2 * (n mod d)) eqn:E2; [apply Z.ltb_lt in E2; lia|apply Z.ltb_ge in E2].
  destruct (Z.even (n / d)); lia.
Qed.

Lemma round_half_even_Q q : (Qabs (inject_Z (round_half_even q) - q) <= 1 # 2)%Q.
Proof.
  pose proof (round_half_even_spec q) as H. destruct q as [n d]. cbn [Qnum Qden] in H.
  apply Qabs_case; intros _; unfold Qle, Qminus, Qplus, Qopp, inject_Z; cbn [Qnum Qden]; lia.
Qed.

Lemma round_half_even_nonneg q : (0 <= q)%Q -> 0 <= round_half_even q.
Proof.
  intros Hq. pose proof (round_half_even_spec q) as H. unfold Qle in Hq. cbn in Hq. rewrite Z.mul_1_r in Hq.
  set (r := round_half_even q) in * . destruct (Z_lt_le_dec r 0); [|assumption]. nia.
Qed.

Lemma round_half_even_unique q z : (Qabs (inject_Z z - q) < 1 # 2)%Q -> round_half_even q = z.
Proof.
  intros H. pose proof (round_half_even_Q q) as H2.
  assert (Hb : (Qabs (inject_Z (round_half_even q) - inject_Z z) < 1)%Q).
  { setoid_replace (inject_Z (round_half_even q) - inject_Z z)%Q
      with ((inject_Z (round_half_even q) - q) + - (inject_Z z - q))%Q by ring.
    eapply Qle_lt_trans; [apply Qabs_triangle|]. rewrite Qabs_opp. lra. }
  apply Qabs_Qlt_condition in Hb. unfold Qlt, Qminus, Qplus, Qopp, inject_Z in Hb. cbn in Hb. lia.
Qed.

(** ** powers of ten *)
Lemma Qpow10_pos e : (0 < Qpow10 e)%Q.
Proof.
  unfold Qpow10. destruct (0 <=? e) eqn:E; [|reflexivity]. apply Z.leb_le in E.
  unfold Qlt, inject_Z. cbn. pose proof (Z.pow_pos_nonneg 10 e). lia.
Qed.
Lemma Qpow10_power e : (Qpow10 e == Qpower (10 # 1) e)%Q.
Proof.
  assert (Hz : forall n, 0 <= n -> (Qpower (10 # 1) n == inject_Z (10 ^ n))%Q).
  { intros n Hn. rewrite (Zpower_Qpower 10 n Hn). reflexivity. }
  unfold Qpow10. destruct (0 <=? e) eqn:E.
  - apply Z.leb_le in E. symmetry. apply Hz. exact E.
  - apply Z.leb_gt in E. replace e with (- (- e)) at 2 by lia. rewrite Qpower_opp, (Hz (- e)) by lia.
    pose proof (Z.pow_pos_nonneg 10 (- e) ltac:(lia) ltac:(lia)) as Hp.
    destruct (10 ^ (- e)) as [|p|p] eqn:Ep; try lia. reflexivity.
Qed.
Lemma Qpow10_plus a b : (Qpow10 (a + b) == Qpow10 a * Qpow10 b)%Q.
Proof. rewrite !Qpow10_power. apply Qpower_plus. intros H. discriminate H. Qed.
Lemma Qpow10_0 : (Qpow10 0 == 1)%Q.
Proof. reflexivity. Qed.
Lemma Qpow10_succ e : (Qpow10 (e + 1) == 10 * Qpow10 e)%Q.
Proof. rewrite Qpow10_plus. change (Qpow10 1) with (10 # 1)%Q. ring. Qed.
Lemma Qpow10_inv e : (Qpow10 e * Qpow10 (- e) == 1)%Q.
Proof. rewrite <- Qpow10_plus, Z.add_opp_diag_r. reflexivity. Qed.
Lemma Qpow10_nat k : Qpow10 (Z.of_nat k) = inject_Z (pow10 k).
Proof. unfold Qpow10. replace (0 <=? Z.of_nat k) with true by (symmetry; apply Z.leb_le; lia). reflexivity. Qed.
Lemma pow10_pos k : 0 < pow10 k.
Proof. unfold pow10. apply Z.pow_pos_nonneg; lia. Qed.
Lemma Qpow10_mono a b : a <= b -> (Qpow10 a <= Qpow10 b)%Q.
Proof.
  intros H. replace b with (a + (b - a)) by lia. rewrite Qpow10_plus.
  pose proof (Qpow10_pos a) as Hp.
  assert (H1 : (1 <= Qpow10 (b - a))%Q).
  { unfold Qpow10. replace (0 <=? b - a) with true by (symmetry; apply Z.leb_le; lia).
    unfold Qle, inject_Z. cbn. pose proof (Z.pow_pos_nonneg 10 (b - a)). lia. }
  nra.
Qed.

(** ** printing and reading decimals *)
Lemma not_digit_dot : is_digit 46 = false. Proof. reflexivity. Qed.

(** [digits] of quotient and remainder, the remainder padded, read back as n. *)
Definition mant (p : nat) (n : Z) : pystr :=
  dchars (digits (n / pow10 p)) ++
  match p with O => [] | S _ => 46 :: lpad p 48 (dchars (digits (n mod pow10 p))) end.

Definition frac_ds (p : nat) (n : Z) : list Z :=
  match p with O => [] | S _ => repeat 0 (p - length (digits (n mod pow10 p))) ++ digits (n mod pow10 p) end.

Lemma frac_ds_spec p n : 0 <= n -> digit_list (frac_ds p n) /\ length (frac_ds p n) = p /\
  value10 (digits (n / pow10 p) ++ frac_ds p n) = n.
Proof.
  intros Hn. pose proof (pow10_pos p) as Hp. pose proof (Z.mod_pos_bound n (pow10 p) Hp) as Hm.
  pose proof (Z.div_mod n (pow10 p) ltac:(lia)) as Hdm.
  assert (Hd : 0 <= n / pow10 p) by (apply Z.div_pos; lia).
  destruct (digits_spec (n / pow10 p) Hd) as (_ & Hv & _ & _).
  destruct p as [|p].
  - cbn [frac_ds]. split; [constructor|]. split; [reflexivity|]. rewrite app_nil_r, Hv. unfold pow10. cbn. apply Z.div_1_r.
  - destruct (digits_spec (n mod pow10 (S p)) ltac:(lia)) as (H1 & H2 & H3 & _).
    cbn [frac_ds]. assert (Hl : length (repeat 0 (S p - length (digits (n mod pow10 (S p)))) ++ digits (n mod pow10 (S p))) = S p).
    { rewrite app_length, repeat_length. pose proof (digits_length (n mod pow10 (S p)) (S p) Hm ltac:(lia)). lia. }
    split; [apply digit_list_pad; exact H1|]. split; [exact Hl|].
    rewrite value10_app, Hl, value10_zeros, H2, Hv. unfold pow10 in * . lia.
Qed.

Lemma mant_eq p n : mant p n = dchars (digits (n / pow10 p)) ++
  match p with O => [] | S _ => 46 :: dchars (frac_ds p n) end.
Proof. unfold mant, frac_ds. destruct p; [reflexivity|]. rewrite lpad_dchars. reflexivity. Qed.

Lemma parse_mant p n r e : 0 <= n -> no_digit_head r -> (p = 0%nat -> forall r', r <> 46 :: r') ->
  parse_exp r = Some e ->
  exists v, parse_udec (mant p n ++ r) = Some v /\ (v == inject_Z n * Qpow10 (e - Z.of_nat p))%Q.
Proof.
  intros Hn Hr H46 He. pose proof (pow10_pos p) as Hp.
  assert (Hd : 0 <= n / pow10 p) by (apply Z.div_pos; lia).
  destruct (digits_spec (n / pow10 p) Hd) as (D1 & D2 & D3 & _).
  destruct (frac_ds_spec p n Hn) as (F1 & F2 & F3).
  rewrite mant_eq. unfold parse_udec. destruct p as [|p].
  - rewrite app_nil_r, span_dchars by assumption. cbn [frac_ds] in F3. rewrite app_nil_r in F3.
    assert (Em : match r with 46 :: r1 => span_digits r1 | _ => ([], r) end = ([], r)).
    { destruct r as [|c r]; [reflexivity|]. specialize (H46 eq_refl).
      destruct c as [|q|q]; try reflexivity. do 6 (destruct q as [q|q|]; try reflexivity).
      exfalso. apply (H46 r). reflexivity. }
    rewrite Em, app_nil_r. destruct (digits (n / pow10 0)) as [|d0 ds0] eqn:Ed; [contradiction|].
    rewrite He. eexists. split; [reflexivity|]. rewrite F3. reflexivity.
  - rewrite <- app_assoc. rewrite span_dchars by (try assumption; reflexivity).
    cbn [app]. rewrite span_dchars by assumption.
    destruct (digits (n / pow10 (S p)) ++ frac_ds (S p) n) as [|d0 ds0] eqn:Ed.
    { destruct (digits (n / pow10 (S p))); [contradiction|discriminate]. }
    rewrite He. eexists. split; [reflexivity|]. rewrite F3, F2. reflexivity.
Qed.

Lemma mant_head p n : 0 <= n -> exists c s, mant p n = c :: s /\ is_space c = false /\ c <> 45 /\ c <> 43.
Proof.
  intros Hn. pose proof (pow10_pos p). assert (Hd : 0 <= n / pow10 p) by (apply Z.div_pos; lia).
  destruct (digits_spec (n / pow10 p) Hd) as (D1 & _ & D3 & _).
  destruct (dchars_head _ D1 D3) as (c & s & E & H1 & H2). unfold mant. rewrite E.
  do 2 eexists. split; [reflexivity|]. split; assumption.
Qed.
Lemma tight_mant p n : 0 <= n -> tight (mant p n).
Proof.
  intros Hn. destruct (mant_head p n Hn) as (c & s & E & Hc & _).
  split; [exists c, s; split; assumption|]. rewrite mant_eq. pose proof (pow10_pos p).
  assert (Hd : 0 <= n / pow10 p) by (apply Z.div_pos; lia).
  destruct (digits_spec (n / pow10 p) Hd) as (D1 & _ & D3 & _).
  destruct p as [|p].
  - rewrite app_nil_r. apply dchars_last; assumption.
  - destruct (frac_ds_spec (S p) n Hn) as (F1 & F2 & _).
    destruct (dchars_last (frac_ds (S p) n) F1) as (s2 & l & E2 & Hl).
    { intros E3. rewrite E3 in F2. discriminate. }
    rewrite E2. exists (dchars (digits (n / pow10 (S p))) ++ 46 :: s2), l.
    split; [|exact Hl]. rewrite <- app_assoc. reflexivity.
Qed.

Lemma parse_dec_signed (neg : bool) s v : tight s -> (forall s', s <> 45 :: s') -> (forall s', s <> 43 :: s') ->
  parse_udec s = Some v ->
  parse_dec ((if neg then [45] else []) ++ s) = Some (if neg then (- v)%Q else v).
Proof.
  intros Ht H1 H2 Hv. unfold parse_dec. destruct neg; cbn [app].
  - rewrite tight_strip by (apply tight_cons; [reflexivity|exact Ht]). rewrite Hv. reflexivity.
  - rewrite tight_strip by exact Ht. destruct s as [|c s]; [discriminate|].
    destruct c as [|q|q]; try exact Hv. do 6 (destruct q as [q|q|]; try exact Hv).
    + exfalso. apply (H2 s). reflexivity.
    + exfalso. apply (H1 s). reflexivity.
Qed.

(** Reading back a fixed-point print. *)
Lemma Qabs'_abs q : (Qabs' q == Qabs q)%Q.
Proof. destruct q as [n d]. unfold Qabs', Qabs. cbn. reflexivity. Qed.
Lemma Qabs'_nonneg q : (0 <= Qabs' q)%Q.
Proof. unfold Qle, Qabs'. cbn. lia. Qed.
Lemma Qneg_abs q : (q == if Qneg q then - Qabs' q else Qabs' q)%Q.
Proof.
  unfold Qneg, Qabs'. destruct q as [n d]. cbn. destruct (n <? 0) eqn:E; unfold Qeq; cbn;
    [apply Z.ltb_lt in E|apply Z.ltb_ge in E]; lia.
Qed.

Definition fixed_n (p : nat) (q : Q) : Z := round_half_even (Qabs' q * inject_Z (pow10 p)).
Lemma fixed_eq p q : fixed p q = (if Qneg q then [45] else []) ++ mant p (fixed_n p q).
Proof. reflexivity. Qed.
Lemma fixed_n_nonneg p q : 0 <= fixed_n p q.
Proof.
  apply round_half_even_nonneg. pose proof (Qabs'_nonneg q). pose proof (pow10_pos p).
  assert (0 <= inject_Z (pow10 p))%Q by (unfold Qle; cbn; lia). nra.
Qed.

Lemma fixed_read w p q : exists v, parse_dec (lpad w 32 (fixed p q)) = Some v /\
  (Qabs (v - q) <= (1 # 2) * Qpow10 (- Z.of_nat p))%Q.
Proof.
  pose proof (fixed_n_nonneg p q) as Hn. rewrite fixed_eq. set (n := fixed_n p q) in * .
  destruct (parse_mant p n [] 0 Hn I) as (v & Hv & Ev); [discriminate|reflexivity|].
  rewrite app_nil_r in Hv.
  assert (Hs : tight ((if Qneg q then [45] else []) ++ mant p n)).
  { destruct (Qneg q); [apply tight_cons; [reflexivity|]|]; apply tight_mant; exact Hn. }
  exists (if Qneg q then (- v)%Q else v). split.
  - rewrite <- (parse_dec_signed (Qneg q) (mant p n) v).
    + unfold parse_dec, lpad. rewrite strip_spaces. reflexivity.
    + apply tight_mant; exact Hn.
    + destruct (mant_head p n Hn) as (c & s & -> & _ & H1 & _). intros s' E. injection E as -> _. contradiction.
    + destruct (mant_head p n Hn) as (c & s & -> & _ & _ & H1). intros s' E. injection E as -> _. contradiction.
    + exact Hv.
  - assert (Hb : (Qabs (v - Qabs' q) <= (1 # 2) * Qpow10 (- Z.of_nat p))%Q).
    { rewrite Ev, Z.sub_0_l. pose proof (round_half_even_Q (Qabs' q * inject_Z (pow10 p))) as Hr.
      fold (fixed_n p q) in Hr. fold n in Hr. rewrite <- Qpow10_nat in Hr.
      pose proof (Qpow10_inv (Z.of_nat p)) as Hi. pose proof (Qpow10_pos (- Z.of_nat p)) as Hp.
      setoid_replace (inject_Z n * Qpow10 (- Z.of_nat p) - Qabs' q)%Q
        with ((inject_Z n - Qabs' q * Qpow10 (Z.of_nat p)) * Qpow10 (- Z.of_nat p))%Q.
      2:{ transitivity (inject_Z n * Qpow10 (- Z.of_nat p) - Qabs' q * (Qpow10 (Z.of_nat p) * Qpow10 (- Z.of_nat p)))%Q;
          [rewrite Hi; ring|ring]. }
      rewrite Qabs_Qmult. rewrite (Qabs_pos (Qpow10 (- Z.of_nat p))) by lra. nra. }
    assert (Eq : (Qabs ((if Qneg q then - v else v) - q) == Qabs (v - Qabs' q))%Q).
    { rewrite (Qneg_abs q) at 2. destruct (Qneg q); [|reflexivity].
      rewrite <- Qabs_opp. apply Qabs_wd. ring. }
    rewrite Eq. exact Hb.
Qed.

Lemma fixed_length p q k : (1 <= k)%nat -> (Qabs' q * inject_Z (pow10 p) + (1 # 2) < inject_Z (10 ^ Z.of_nat k * pow10 p))%Q ->
  (length (fixed p q) <= (if Qneg q then 1 else 0) + k + (match p with O => 0 | S _ => S p end))%nat.
Proof.
  intros Hk Hq. rewrite fixed_eq, mant_eq. pose proof (fixed_n_nonneg p q) as Hn.
  pose proof (round_half_even_Q (Qabs' q * inject_Z (pow10 p))) as Hr. fold (fixed_n p q) in Hr.
  set (n := fixed_n p q) in * . apply Qabs_Qle_condition in Hr.
  assert (Hlt : n < 10 ^ Z.of_nat k * pow10 p).
  { assert (inject_Z n < inject_Z (10 ^ Z.of_nat k * pow10 p))%Q by lra. unfold Qlt in H. cbn in H. lia. }
  pose proof (pow10_pos p) as Hp.
  assert (Hd : (length (digits (n / pow10 p)) <= k)%nat).
  { apply digits_length; [|exact Hk]. split; [apply Z.div_pos; lia|]. apply Z.div_lt_upper_bound; lia. }
  destruct (frac_ds_spec p n Hn) as (_ & F2 & _).
  rewrite !app_length, dchars_length.
  assert (length (if Qneg q then [45] else []) = if Qneg q then 1%nat else 0%nat) by (destruct (Qneg q); reflexivity).
  destruct p as [|p]; [cbn [length]; lia|]. cbn [length]. rewrite dchars_length, F2. lia.
Qed.

(** ** scientific notation *)
Lemma find_up_spec q : forall fuel e, (Qpow10 e <= q)%Q -> (q < Qpow10 (e + Z.of_nat fuel))%Q ->
  let r := find_up fuel q e in (Qpow10 r <= q)%Q /\ (q < Qpow10 (r + 1))%Q.
Proof.
  induction fuel as [|f IH]; intros e H1 H2; cbn [find_up]; cbv zeta.
  - rewrite Z.add_0_r in H2. lra.
  - destruct (Qle_bool (Qpow10 (e + 1)) q) eqn:E.
    + apply Qle_bool_iff in E. apply IH; [exact E|]. replace (e + 1 + Z.of_nat f) with (e + Z.of_nat (S f)) by lia. exact H2.
    + split; [exact H1|]. apply Qnot_le_lt. intros H. apply Qle_bool_iff in H. congruence.
Qed.
Lemma find_down_spec q : forall fuel e, (q < Qpow10 (e + 1))%Q -> (Qpow10 (e + 1 - Z.of_nat fuel) <= q)%Q ->
  let r := find_down fuel q e in (Qpow10 r <= q)%Q /\ (q < Qpow10 (r + 1))%Q.
Proof.
  induction fuel as [|f IH]; intros e H1 H2; cbn [find_down]; cbv zeta.
  - rewrite Z.sub_0_r in H2. lra.
  - destruct (Qle_bool (Qpow10 e) q) eqn:E.
    + apply Qle_bool_iff in E. split; assumption.
    + apply IH.
      * replace (e - 1 + 1) with e by lia. apply Qnot_le_lt. intros H. apply Qle_bool_iff in H. congruence.
      * replace (e - 1 + 1 - Z.of_nat f) with (e + 1 - Z.of_nat (S f)) by lia. exact H2.
Qed.

Lemma pow2_10 k : 0 <= k -> 2 ^ k <= 10 ^ k.
Proof. intros. apply Z.pow_le_mono_l. lia. Qed.

Lemma exp10_spec q : (0 < q)%Q -> (Qpow10 (exp10 q) <= q)%Q /\ (q < Qpow10 (exp10 q + 1))%Q.
Proof.
  intros Hq. unfold exp10. destruct (Qle_bool 1 q) eqn:E.
  - apply Qle_bool_iff in E. apply find_up_spec; [exact E|].
    assert (Hn : 0 < Qnum q) by (unfold Qlt in Hq; cbn in Hq; lia).
    destruct (Z.log2_spec (Qnum q) Hn) as [_ Hl]. pose proof (Z.log2_nonneg (Qnum q)) as Hl0.
    replace (0 + Z.of_nat (Z.to_nat (Z.log2 (Qnum q)) + 1)) with (Z.succ (Z.log2 (Qnum q))) by lia.
    unfold Qpow10. replace (0 <=? Z.succ (Z.log2 (Qnum q))) with true by (symmetry; apply Z.leb_le; lia).
    pose proof (pow2_10 (Z.succ (Z.log2 (Qnum q))) ltac:(lia)).
    unfold Qlt, inject_Z. cbn [Qnum Qden]. nia.
  - assert (Hlt : (q < 1)%Q) by (apply Qnot_le_lt; intros H; apply Qle_bool_iff in H; congruence).
    apply find_down_spec; [change (Qpow10 (0 + 1)) with (10 # 1)%Q; lra|].
    set (d := Zpos (Qden q)). assert (Hd : 0 < d) by reflexivity.
    destruct (Z.log2_spec d Hd) as [_ Hl]. pose proof (Z.log2_nonneg d) as Hl0.
    replace (0 + 1 - Z.of_nat (Z.to_nat (Z.log2 d) + 2)) with (- Z.succ (Z.log2 d)) by lia.
    unfold Qpow10. replace (0 <=? - Z.succ (Z.log2 d)) with false by (symmetry; apply Z.leb_gt; lia).
    rewrite Z.opp_involutive. pose proof (pow2_10 (Z.succ (Z.log2 d)) ltac:(lia)) as H10.
    assert (Hn : 0 < Qnum q) by (unfold Qlt in Hq; cbn in Hq; lia).
    unfold Qle. cbn [Qnum Qden]. fold d. rewrite Z2Pos.id by lia. nia.
Qed.

Lemma exp10_unique q e : (Qpow10 e <= q)%Q -> (q < Qpow10 (e + 1))%Q -> exp10 q = e.
Proof.
  intros H1 H2. assert (Hq : (0 < q)%Q) by (pose proof (Qpow10_pos e); lra).
  destruct (exp10_spec q Hq) as [H3 H4].
  destruct (Z_lt_le_dec (exp10 q) e) as [Hlt|Hge].
  - pose proof (Qpow10_mono (exp10 q + 1) e ltac:(lia)). lra.
  - destruct (Z_lt_le_dec e (exp10 q)) as [Hlt|Hle]; [|lia].
    pose proof (Qpow10_mono (e + 1) (exp10 q) ltac:(lia)). lra.
Qed.

Lemma half_le a b : (inject_Z a <= inject_Z b + (1 # 2))%Q -> a <= b.
Proof. unfold Qle, Qplus, inject_Z. cbn [Qnum Qden]. lia. Qed.

(** Mantissa and exponent of the print: p+1 significant digits within half a
    unit of the last one. *)
Lemma sci_parts_spec p a m e : (0 <= a)%Q -> sci_parts p a = (m, e) ->
  0 <= m /\ ((a == 0)%Q /\ m = 0 /\ e = 0 \/ (0 < a)%Q /\ pow10 p <= m < 10 * pow10 p) /\
  (Qabs (inject_Z m * Qpow10 (e - Z.of_nat p) - a) <= (1 # 2) * Qpow10 (- Z.of_nat p) * a)%Q.
Proof.
  intros Ha E. unfold sci_parts in E. destruct (Qnum a =? 0) eqn:E0.
  - apply Z.eqb_eq in E0. injection E as <- <-. assert (Hz : (a == 0)%Q) by (unfold Qeq; cbn; lia).
    split; [lia|]. split; [left; split; [exact Hz|split; reflexivity]|].
    rewrite Hz. setoid_replace (inject_Z 0 * Qpow10 (0 - Z.of_nat p) - 0)%Q with 0%Q by ring.
    setoid_replace ((1 # 2) * Qpow10 (- Z.of_nat p) * 0)%Q with 0%Q by ring. discriminate.
  - apply Z.eqb_neq in E0. assert (Hp : (0 < a)%Q) by (unfold Qle in Ha; unfold Qlt; cbn in * ; lia).
    destruct (exp10_spec a Hp) as [H1 H2]. set (x := exp10 a) in * .
    set (P := Z.of_nat p) in * . cbv zeta in E.
    pose proof (round_half_even_Q (a * Qpow10 (P - x))) as Hr.
    set (k := round_half_even (a * Qpow10 (P - x))) in * .
    pose proof (Qpow10_pos (P - x)) as Hpx. pose proof (Qpow10_pos (x - P)) as Hxp.
    assert (Hinv : (Qpow10 (P - x) * Qpow10 (x - P) == 1)%Q).
    { replace (x - P) with (- (P - x)) by lia. apply Qpow10_inv. }
    (* scaled value in [10^p, 10^(p+1)) *)
    assert (Hs1 : (inject_Z (pow10 p) <= a * Qpow10 (P - x))%Q).
    { rewrite <- Qpow10_nat. fold P. replace P with (x + (P - x)) at 1 by lia. rewrite Qpow10_plus. nra. }
    assert (Hs2 : (a * Qpow10 (P - x) < inject_Z (10 * pow10 p))%Q).
    { rewrite inject_Z_mult, <- Qpow10_nat. fold P. change (inject_Z 10) with (10 # 1)%Q.
      setoid_replace ((10 # 1) * Qpow10 P)%Q with (Qpow10 (x + 1) * Qpow10 (P - x))%Q.
      - nra.
      - rewrite <- Qpow10_plus. replace (x + 1 + (P - x)) with (P + 1) by lia. rewrite Qpow10_succ. reflexivity. }
    apply Qabs_Qle_condition in Hr.
    assert (Hk1 : pow10 p <= k).
    { apply half_le. lra. }
    assert (Hk2 : k <= 10 * pow10 p).
    { apply half_le. lra. }
    assert (Herr : (Qabs (inject_Z k * Qpow10 (x - P) - a) <= (1 # 2) * Qpow10 (- P) * a)%Q).
    { setoid_replace (inject_Z k * Qpow10 (x - P) - a)%Q
        with ((inject_Z k - a * Qpow10 (P - x)) * Qpow10 (x - P))%Q.
      2:{ transitivity (inject_Z k * Qpow10 (x - P) - a * (Qpow10 (P - x) * Qpow10 (x - P)))%Q;
          [rewrite Hinv; ring|ring]. }
      rewrite Qabs_Qmult, (Qabs_pos (Qpow10 (x - P))) by lra.
      assert (Hab : (Qabs (inject_Z k - a * Qpow10 (P - x)) <= 1 # 2)%Q) by (apply Qabs_Qle_condition; exact Hr).
      assert (Hx : (Qpow10 (x - P) <= Qpow10 (- P) * a)%Q).
      { replace (x - P) with (x + - P) by lia. rewrite Qpow10_plus. pose proof (Qpow10_pos (- P)). nra. }
      pose proof (Qabs_nonneg (inject_Z k - a * Qpow10 (P - x))). nra. }
    pose proof (pow10_pos p) as Hpp.
    destruct (k =? 10 * pow10 p) eqn:Ek; injection E as <- <-.
    + apply Z.eqb_eq in Ek. split; [lia|]. split; [right; split; [exact Hp|lia]|].
      setoid_replace (inject_Z (pow10 p) * Qpow10 (x + 1 - P))%Q with (inject_Z k * Qpow10 (x - P))%Q; [exact Herr|].
      rewrite Ek, inject_Z_mult. replace (x + 1 - P) with ((x - P) + 1) by lia. rewrite Qpow10_succ.
      change (inject_Z 10) with (10 # 1)%Q. ring.
    + apply Z.eqb_neq in Ek. split; [lia|]. split; [right; split; [exact Hp|lia]|exact Herr].
Qed.

Definition exp_text (e : Z) : pystr := 69 :: (if e <? 0 then 45 else 43) :: lpad 2 48 (dchars (digits (Z.abs e))).
Lemma parse_exp_text e : parse_exp (exp_text e) = Some e.
Proof.
  unfold exp_text. destruct (digits_spec (Z.abs e) ltac:(lia)) as (H1 & H2 & H3 & _).
  assert (Hn : parse_nat (lpad 2 48 (dchars (digits (Z.abs e)))) = Some (Z.abs e)).
  { rewrite lpad_dchars, parse_nat_dchars.
    - rewrite value10_zeros, H2. reflexivity.
    - apply digit_list_pad; exact H1.
    - destruct (digits (Z.abs e)); [contradiction|]. destruct (repeat _ _); discriminate. }
  unfold parse_exp. cbn [Z.eqb Pos.eqb orb]. destruct (e <? 0) eqn:E; rewrite Hn; cbn [option_map]; f_equal;
    [apply Z.ltb_lt in E|apply Z.ltb_ge in E]; lia.
Qed.
Lemma tight_exp_text e : tight (exp_text e).
Proof.
  unfold exp_text. apply tight_cons; [reflexivity|]. apply tight_cons; [destruct (e <? 0); reflexivity|].
  rewrite lpad_dchars. destruct (digits_spec (Z.abs e) ltac:(lia)) as (H1 & _ & H3 & _). apply tight_dchars.
  - apply digit_list_pad; exact H1.
  - destruct (digits (Z.abs e)); [contradiction|]. destruct (repeat _ _); discriminate.
Qed.

Lemma sci_eq p q : sci p q = (if Qneg q then [45] else []) ++
  (mant p (fst (sci_parts p (Qabs' q))) ++ exp_text (snd (sci_parts p (Qabs' q)))).
Proof.
  unfold sci. destruct (sci_parts p (Qabs' q)) as [m e]. cbn [fst snd]. unfold mant, exp_text.
  rewrite <- app_assoc. reflexivity.
Qed.

Lemma sci_parse p q : exists v, parse_dec (sci p q) = Some v /\
  (v == (if Qneg q then - (1) else 1) * (inject_Z (fst (sci_parts p (Qabs' q))) *
        Qpow10 (snd (sci_parts p (Qabs' q)) - Z.of_nat p)))%Q.
Proof.
  rewrite sci_eq. destruct (sci_parts p (Qabs' q)) as [m e] eqn:E. cbn [fst snd].
  destruct (sci_parts_spec p (Qabs' q) m e (Qabs'_nonneg q) E) as (Hm & _ & _).
  destruct (parse_mant p m (exp_text e) e Hm) as (v & Hv & Ev).
  - reflexivity.
  - intros _ r'. discriminate.
  - apply parse_exp_text.
  - exists (if Qneg q then (- v)%Q else v). split.
    + apply parse_dec_signed.
      * apply tight_app; [apply tight_mant; exact Hm|apply tight_exp_text].
      * destruct (mant_head p m Hm) as (c & s & -> & _ & H1 & _). intros s' E2. injection E2 as -> _. contradiction.
      * destruct (mant_head p m Hm) as (c & s & -> & _ & _ & H1). intros s' E2. injection E2 as -> _. contradiction.
      * exact Hv.
    + destruct (Qneg q); rewrite Ev; ring.
Qed.

Lemma sci_read p q : exists v, parse_dec (sci p q) = Some v /\
  (Qabs (v - q) <= (1 # 2) * Qpow10 (- Z.of_nat p) * Qabs q)%Q.
Proof.
  destruct (sci_parse p q) as (v & Hv & Ev). exists v. split; [exact Hv|].
  destruct (sci_parts p (Qabs' q)) as [m e] eqn:E. cbn [fst snd] in Ev.
  destruct (sci_parts_spec p (Qabs' q) m e (Qabs'_nonneg q) E) as (_ & _ & Hb).
  rewrite <- (Qabs'_abs q). eapply Qle_trans; [|exact Hb]. apply Qle_lteq. right.
  pose proof (Qneg_abs q) as Eq. destruct (Qneg q).
  - rewrite <- Qabs_opp. apply Qabs_wd. rewrite Ev. rewrite Eq at 1. ring.
  - apply Qabs_wd. rewrite Ev. rewrite Eq at 1. ring.
Qed.

(** A number near a decimal with p+1 digits prints as that decimal. *)
Lemma sci_near p k j x : pow10 p <= k < 10 * pow10 p -> (0 < x)%Q ->
  (Qabs (x * Qpow10 (- j) - inject_Z k) < 1 # 20)%Q -> sci_parts p x = (k, j + Z.of_nat p).
Proof.
  intros Hk Hx Hn. apply Qabs_Qlt_condition in Hn. set (P := Z.of_nat p) in * .
  pose proof (pow10_pos p) as Hpp. pose proof (Qpow10_pos j) as Hj. pose proof (Qpow10_pos (- j)) as Hj'.
  pose proof (Qpow10_inv j) as Hi.
  set (y := (x * Qpow10 (- j))%Q) in * .
  assert (Ex : (x == y * Qpow10 j)%Q).
  { unfold y. transitivity (x * (Qpow10 j * Qpow10 (- j)))%Q; [rewrite Hi; ring|ring]. }
  assert (Ejp : (Qpow10 (j + P) == inject_Z (pow10 p) * Qpow10 j)%Q).
  { rewrite Qpow10_plus. unfold P. rewrite Qpow10_nat. ring. }
  assert (K1 : (inject_Z (pow10 p) <= inject_Z k)%Q) by (rewrite <- Zle_Qle; lia).
  assert (K2 : (inject_Z k <= inject_Z (10 * pow10 p) - 1)%Q).
  { setoid_replace (inject_Z (10 * pow10 p) - 1)%Q with (inject_Z (10 * pow10 p - 1)).
    - rewrite <- Zle_Qle. lia.
    - unfold Z.sub. rewrite inject_Z_plus. reflexivity. }
  rewrite inject_Z_mult in K2. change (inject_Z 10) with (10 # 1)%Q in K2.
  set (T := inject_Z (pow10 p)) in * . set (K := inject_Z k) in * . set (J := Qpow10 j) in * .
  unfold sci_parts. replace (Qnum x =? 0) with false.
  2:{ symmetry. apply Z.eqb_neq. unfold Qlt in Hx. cbn in Hx. lia. }
  cbv zeta. destruct (Qlt_le_dec x (Qpow10 (j + P))) as [Hlt|Hge].
  - (* just below a power of ten *)
    assert (Hy : (y < T)%Q).
    { apply Qnot_le_lt. intros Hc. rewrite Ex, Ejp in Hlt. nra. }
    assert (HkT : k = pow10 p).
    { assert (K <= T + (1 # 2))%Q by lra. unfold K, T in H. apply half_le in H. lia. }
    assert (He : exp10 x = j + P - 1).
    { apply exp10_unique.
      - pose proof (Qpow10_succ (j + P - 1)) as Hs. replace (j + P - 1 + 1) with (j + P) in Hs by lia.
        rewrite Ejp in Hs. rewrite Ex.
        assert (H1 : (1 <= T)%Q) by (unfold T; change 1%Q with (inject_Z 1); rewrite <- Zle_Qle; lia). nra.
      - replace (j + P - 1 + 1) with (j + P) by lia. exact Hlt. }
    fold P. rewrite He. assert (Hm : round_half_even (x * Qpow10 (P - (j + P - 1))) = 10 * pow10 p).
    { apply round_half_even_unique. replace (P - (j + P - 1)) with (- j + 1) by lia.
      setoid_replace (inject_Z (10 * pow10 p) - x * Qpow10 (- j + 1))%Q with ((10 # 1) * (T - y))%Q.
      - apply Qabs_Qlt_condition. assert (EK : (K == T)%Q) by (unfold K, T; rewrite HkT; reflexivity). lra.
      - rewrite inject_Z_mult, Qpow10_succ. change (inject_Z 10) with (10 # 1)%Q. fold T. unfold y. ring. }
    rewrite Hm, Z.eqb_refl. rewrite HkT. f_equal. lia.
  - assert (He : exp10 x = j + P).
    { apply exp10_unique; [exact Hge|]. rewrite Qpow10_succ, Ejp. rewrite Ex. nra. }
    fold P. rewrite He. assert (Hm : round_half_even (x * Qpow10 (P - (j + P))) = k).
    { apply round_half_even_unique. replace (P - (j + P)) with (- j) by lia. fold y K.
      apply Qabs_Qlt_condition. lra. }
    rewrite Hm. replace (k =? 10 * pow10 p) with false by (symmetry; apply Z.eqb_neq; lia). reflexivity.
Qed.

Lemma normalise p k : 0 < k < 10 * pow10 p -> exists i, 0 <= i /\ pow10 p <= k * 10 ^ i < 10 * pow10 p.
Proof.
  intros Hk. destruct (exp10_spec (inject_Z k)) as [H1 H2].
  - change 0%Q with (inject_Z 0). rewrite <- Zlt_Qlt. lia.
  - set (e := exp10 (inject_Z k)) in * .
    assert (He0 : 0 <= e).
    { destruct (Z_lt_le_dec e 0); [|assumption]. exfalso. pose proof (Qpow10_mono (e + 1) 0 ltac:(lia)) as Hm.
      change (Qpow10 0) with 1%Q in Hm. assert (1 <= inject_Z k)%Q by (change 1%Q with (inject_Z 1); rewrite <- Zle_Qle; lia). lra. }
    assert (E1 : Qpow10 e = inject_Z (10 ^ e)) by (unfold Qpow10; replace (0 <=? e) with true by (symmetry; apply Z.leb_le; lia); reflexivity).
    assert (E2 : Qpow10 (e + 1) = inject_Z (10 ^ (e + 1))) by (unfold Qpow10; replace (0 <=? e + 1) with true by (symmetry; apply Z.leb_le; lia); reflexivity).
    rewrite E1 in H1. rewrite E2 in H2. rewrite <- Zle_Qle in H1. rewrite <- Zlt_Qlt in H2.
    assert (Hep : e <= Z.of_nat p).
    { destruct (Z_lt_le_dec (Z.of_nat p) e); [|assumption]. exfalso.
      assert (10 ^ (Z.of_nat p + 1) <= 10 ^ e) by (apply Z.pow_le_mono_r; lia).
      rewrite Z.pow_add_r in H by lia. unfold pow10 in Hk. lia. }
    exists (Z.of_nat p - e). split; [lia|]. unfold pow10.
    assert (Es : 10 ^ Z.of_nat p = 10 ^ e * 10 ^ (Z.of_nat p - e)) by (rewrite <- Z.pow_add_r by lia; f_equal; lia).
    pose proof (Z.pow_pos_nonneg 10 (Z.of_nat p - e) ltac:(lia) ltac:(lia)).
    rewrite Es. rewrite Z.pow_add_r in H2 by lia. split; nia.
Qed.

(** Any number within a relative 2e-10 * 10^(6-p) ... of a decimal D of at most
    p+1 significant digits reads back as exactly D. *)
Lemma sci_exact p k j x : 0 < k < 10 * pow10 p ->
  (Qabs (Qabs' x - inject_Z k * Qpow10 j) < (1 # 200) * Qpow10 (- Z.of_nat p) * (inject_Z k * Qpow10 j))%Q ->
  exists v, parse_dec (sci p x) = Some v /\ (v == (if Qneg x then - (1) else 1) * (inject_Z k * Qpow10 j))%Q.
Proof.
  intros Hk Hx. destruct (sci_parse p x) as (v & Hv & Ev). exists v. split; [exact Hv|].
  destruct (normalise p k Hk) as (i & Hi & Hki).
  assert (Ek : (inject_Z (k * 10 ^ i) * Qpow10 (j - i) == inject_Z k * Qpow10 j)%Q).
  { replace j with ((j - i) + i) at 2 by lia. rewrite Qpow10_plus, inject_Z_mult.
    unfold Qpow10 at 3. replace (0 <=? i) with true by (symmetry; apply Z.leb_le; lia). ring. }
  set (D := (inject_Z k * Qpow10 j)%Q) in * .
  set (k' := k * 10 ^ i) in * .
  pose proof (Qpow10_pos (j - i)) as Hp. pose proof (Qpow10_pos (- (j - i))) as Hp'. pose proof (Qpow10_inv (j - i)) as Hinv.
  pose proof (Qpow10_pos (- Z.of_nat p)) as Hpp'. pose proof (pow10_pos p) as Hpp.
  assert (HD : (0 < D)%Q).
  { rewrite <- Ek. assert (0 < inject_Z k')%Q by (change 0%Q with (inject_Z 0); rewrite <- Zlt_Qlt; lia). nra. }
  assert (HQ : (Qpow10 (- Z.of_nat p) <= 1)%Q) by (change 1%Q with (Qpow10 0); apply Qpow10_mono; lia).
  assert (Hx0 : (0 < Qabs' x)%Q) by (apply Qabs_Qlt_condition in Hx; nra).
  assert (Hs : sci_parts p (Qabs' x) = (k', j - i + Z.of_nat p)).
  { apply sci_near; [exact Hki|exact Hx0|].
    setoid_replace (Qabs' x * Qpow10 (- (j - i)) - inject_Z k')%Q with ((Qabs' x - D) * Qpow10 (- (j - i)))%Q.
    2:{ rewrite <- Ek. transitivity (Qabs' x * Qpow10 (- (j - i)) - inject_Z k' * (Qpow10 (j - i) * Qpow10 (- (j - i))))%Q;
        [rewrite Hinv; ring|ring]. }
    rewrite Qabs_Qmult, (Qabs_pos (Qpow10 (- (j - i)))) by lra.
    assert (Hk' : (inject_Z k' < (10 # 1) * Qpow10 (Z.of_nat p))%Q).
    { rewrite Qpow10_nat. change (10 # 1)%Q with (inject_Z 10). rewrite <- inject_Z_mult, <- Zlt_Qlt. lia. }
    pose proof (Qpow10_inv (Z.of_nat p)) as HinvP.
    assert (HDk : (D * Qpow10 (- (j - i)) == inject_Z k')%Q).
    { rewrite <- Ek. transitivity (inject_Z k' * (Qpow10 (j - i) * Qpow10 (- (j - i))))%Q; [ring|rewrite Hinv; ring]. }
    eapply Qlt_le_trans.
    - apply Qmult_lt_r; [exact Hp'|exact Hx].
    - setoid_replace ((1 # 200) * Qpow10 (- Z.of_nat p) * D * Qpow10 (- (j - i)))%Q
        with ((1 # 200) * Qpow10 (- Z.of_nat p) * (D * Qpow10 (- (j - i))))%Q by ring.
      rewrite HDk. set (a := Qpow10 (- Z.of_nat p)) in * . set (b := Qpow10 (Z.of_nat p)) in * .
      assert (a * inject_Z k' <= a * ((10 # 1) * b))%Q.
      { apply Qmult_le_l; [exact Hpp'|]. lra. }
      assert (a * ((10 # 1) * b) == 10 # 1)%Q by (transitivity ((10 # 1) * (b * a))%Q; [ring|rewrite HinvP; ring]).
      lra. }
  rewrite Hs in Ev. cbn [fst snd] in Ev. rewrite Ev. replace (j - i + Z.of_nat p - Z.of_nat p) with (j - i) by lia.
  rewrite Ek. reflexivity.
Qed.
