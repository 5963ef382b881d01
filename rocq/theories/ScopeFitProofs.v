(** Proofs that autoscaling converges on a scope showing a signal. *)
From Coq Require Import String ZArith Bool QArith Qabs Qreals Reals Lra Lia Psatz List Morphisms.
Import ListNotations.
From Verif Require Import Base Num RBool PyStr PyStrProofs StrformatProps IOModel EquipModel TekModel TekSpec ScopeModel ScopeSpec
  ScopeProofs ScopeTripProofs ScopeReadProofs ScopeUseModel ScopeUseSpec ScopeWaveProps AutoModel AutoSpec AutoProofs ScopeAutoModel ScopeAutoSpec ScopeAutoProofs.

(** ** Numbers *)
Section Numbers.
Local Open Scope R_scope.
Lemma Rabs_bound x y : Rabs x <= y <-> - y <= x <= y.
Proof. unfold Rabs. destruct (Rcase_abs x); lra. Qed.
Lemma mult_bound x y a b : Rabs x <= a -> Rabs y <= b -> Rabs (x * y) <= a * b.
Proof. intros. rewrite Rabs_mult. apply Rmult_le_compat; try apply Rabs_pos; assumption. Qed.
(** The error of a height after a correction: [r] is the magnification, [st]
    and [pt] are the settings as read, [s2] and [p2] the new ones as stored. *)
Lemma stored_error s st p pt r s' s2 p' p2 mid v : 0 < s -> Rabs (st - s) <= / 10 ^ 9 * s -> Rabs p <= 100 -> Rabs (pt - p) <= / 10 ^ 9 ->
  0 < r -> s' = st / r -> p' = (pt - 10 * mid) * r -> Rabs mid <= 1 / 2 -> Rabs (s2 - s') <= 5 / 10 ^ 7 * Rabs s' -> Rabs (p2 - p') <= 5 / 10 ^ 7 * Rabs p' ->
  Rabs ((v / s + p) / 10) <= 1 / 2 ->
  0 < s2 /\ Rabs ((v / s2 + p2) / 10 - ((v / s + p) / 10 - mid) * r) <= 2 / 10 ^ 5 * r.
Proof.
  intros S ST P PT R S' P' M S2 P2 H.
  set (h := (v / s + p) / 10) in * .
  set (e0 := (st - s) / s). assert (E0 : st = s * (1 + e0)) by (unfold e0; field; lra).
  assert (B0 : Rabs e0 <= / 10 ^ 9).
  { unfold e0, Rdiv. rewrite Rabs_mult, Rabs_inv, (Rabs_pos_eq s) by lra. apply (Rmult_le_reg_r s); [exact S|].
    rewrite Rmult_assoc, Rinv_l, Rmult_1_r by lra. exact ST. }
  apply Rabs_bound in B0.
  assert (PS : 0 < s') by (rewrite S', E0; apply Rdiv_lt_0_compat; [apply Rmult_lt_0_compat|]; lra).
  set (e1 := (s2 - s') / s'). assert (E1 : s2 = s' * (1 + e1)) by (unfold e1; field; lra).
  assert (B1 : Rabs e1 <= 5 / 10 ^ 7).
  { unfold e1. unfold Rdiv at 1. rewrite Rabs_mult, Rabs_inv. apply (Rmult_le_reg_r (Rabs s')); [apply Rabs_pos_lt; lra|].
    rewrite Rmult_assoc, Rinv_l, Rmult_1_r by (apply Rabs_no_R0; lra). exact S2. }
  apply Rabs_bound in B1.
  set (u := (1 + e0) * (1 + e1)). assert (BU : 1 - 6 / 10 ^ 7 <= u <= 1 + 6 / 10 ^ 7) by (unfold u; split; nra).
  assert (U : s2 = s * u / r) by (rewrite E1, S', E0; unfold u; field; lra).
  assert (PS2 : 0 < s2) by (rewrite U; apply Rdiv_lt_0_compat; [apply Rmult_lt_0_compat|]; lra). split; [exact PS2|].
  set (t := / u - 1). assert (BT : Rabs t <= 7 / 10 ^ 7).
  { assert (TU : (1 + t) * u = 1) by (unfold t; field; lra). apply Rabs_bound. split; nra. }
  assert (V : v = s * (10 * h - p)) by (unfold h; field; lra).
  assert (EQ : (v / s2 + p2) / 10 - (h - mid) * r = r * ((h - p / 10) * t) + (p2 - p') / 10 + r * ((pt - p) / 10)).
  { rewrite V, U, P'. unfold t. field. lra. }
  rewrite EQ.
  assert (B2 : Rabs (h - p / 10) <= 21 / 2).
  { apply Rabs_bound in H. apply Rabs_bound in P. apply Rabs_bound. lra. }
  pose proof (mult_bound _ _ _ _ B2 BT) as B3.
  assert (B4 : Rabs p' <= 106 * r).
  { rewrite P', Rabs_mult, (Rabs_pos_eq r) by lra. apply Rmult_le_compat_r; [lra|]. apply Rabs_bound.
    apply Rabs_bound in P. apply Rabs_bound in PT. apply Rabs_bound in M. lra. }
  assert (B5 : Rabs (p2 - p') <= 5 / 10 ^ 7 * (106 * r)) by (eapply Rle_trans; [exact P2|]; apply Rmult_le_compat_l; [lra|exact B4]).
  eapply Rle_trans; [apply Rabs_triang|]. eapply Rle_trans; [apply Rplus_le_compat_r, Rabs_triang|].
  assert (D10 : forall x, Rabs (x / 10) = Rabs x / 10) by (intro x; unfold Rdiv; rewrite Rabs_mult, (Rabs_pos_eq (/ 10)) by lra; reflexivity).
  rewrite !(Rabs_mult r), (Rabs_pos_eq r), !D10 by lra.
  assert (B6 : r * Rabs ((h - p / 10) * t) <= r * (21 / 2 * (7 / 10 ^ 7))) by (apply Rmult_le_compat_l; [lra|exact B3]).
  assert (B7 : r * (Rabs (pt - p) / 10) <= r * (/ 10 ^ 9 / 10)) by (apply Rmult_le_compat_l; lra).
  lra.
Qed.
(** A picture between [A] and [B], of a signal between [a] and [b]. *)
Lemma fits_after s st p pt a b A B lo hi s2 p2 : 0 < s -> Rabs (st - s) <= / 10 ^ 9 * s -> Rabs p <= 100 -> Rabs (pt - p) <= / 10 ^ 9 ->
  a = (lo / s + p) / 10 -> b = (hi / s + p) / 10 -> - (44 / 100) <= a -> b <= 44 / 100 -> 1 / 5 <= b - a ->
  Rabs (A - a) <= 1 / 254 -> Rabs (B - b) <= 1 / 254 ->
  match new_scale_of st A B with
  | None => 75 / 100 <= B - A <= 85 / 100
  | Some s' => Rabs (s2 - s') <= 5 / 10 ^ 7 * Rabs s' -> (let p' := (pt - 10 * ((A + B) / 2)) * st / s' in Rabs (p2 - p') <= 5 / 10 ^ 7 * Rabs p') ->
      s / 5 <= s2 <= 2 * s /\ Rabs ((lo / s2 + p2) / 10 + 4 / 10) <= 17 / 1000 /\ Rabs ((hi / s2 + p2) / 10 - 4 / 10) <= 17 / 1000
  end.
Proof.
  intros S ST P PT EA EB BA BB L DA DB. apply Rabs_bound in DA, DB.
  assert (STP : 0 < st) by (apply Rabs_bound in ST; nra).
  unfold new_scale_of. cbv zeta. rcases; try lra.
  all: intros S2 P2.
  all: set (r := 8 / 10 / (B - A)); assert (LR : r * (B - A) = 8 / 10) by (unfold r; field; lra);
    assert (RP : 0 < r) by (apply Rdiv_lt_0_compat; lra); assert (RB : r <= 42 / 10) by nra; assert (RL : 9 / 10 <= r) by nra;
    fold r in S2, P2;
    assert (PE : (pt - 10 * ((A + B) / 2)) * st / (st / r) = (pt - 10 * ((A + B) / 2)) * r) by (field; lra); rewrite PE in P2;
    assert (MB : Rabs ((A + B) / 2) <= 1 / 2) by (apply Rabs_bound; lra);
    destruct (stored_error s st p pt r (st / r) s2 _ p2 ((A + B) / 2) lo S ST P PT RP eq_refl eq_refl MB S2 P2) as [Q1 HL]; [rewrite <- EA; apply Rabs_bound; lra|];
    destruct (stored_error s st p pt r (st / r) s2 _ p2 ((A + B) / 2) hi S ST P PT RP eq_refl eq_refl MB S2 P2) as [_ HH]; [rewrite <- EB; apply Rabs_bound; lra|];
    rewrite <- EA in HL; rewrite <- EB in HH; apply Rabs_bound in HL, HH.
  all: assert (XA : Rabs ((a - A) * r) <= 1 / 254 * (42 / 10)) by (apply mult_bound; apply Rabs_bound; lra).
  all: assert (XB : Rabs ((b - B) * r) <= 1 / 254 * (42 / 10)) by (apply mult_bound; apply Rabs_bound; lra).
  all: apply Rabs_bound in XA, XB.
  all: split; [|split; apply Rabs_bound; lra].
  all: assert (SR : st / r * r = st) by (field; lra).
  all: apply Rabs_bound in S2; rewrite Rabs_pos_eq in S2 by (left; apply Rdiv_lt_0_compat; lra).
  all: apply Rabs_bound in ST.
  all: assert (ST5 : s * (1 - / 10 ^ 9) / (42 / 10) <= st / r).
  1,3: apply (Rmult_le_reg_r r); [exact RP|]; rewrite SR; apply Rle_trans with (s * (1 - / 10 ^ 9)); [|lra];
       assert (Z0 : 0 < s * (1 - / 10 ^ 9)) by nra; set (z := s * (1 - / 10 ^ 9)) in *; unfold Rdiv; nra.
  all: assert (ST6 : st / r <= s * (1 + / 10 ^ 9) / (9 / 10)).
  1,3: apply (Rmult_le_reg_r r); [exact RP|]; rewrite SR; apply Rle_trans with (s * (1 + / 10 ^ 9)); [lra|];
       assert (Z0 : 0 < s * (1 + / 10 ^ 9)) by nra; set (z := s * (1 + / 10 ^ 9)) in *; unfold Rdiv; nra.
  all: nra.
Qed.
Lemma accepted s A B : Rabs (A + 4 / 10) <= 21 / 1000 -> Rabs (B - 4 / 10) <= 21 / 1000 -> new_scale_of s A B = None.
Proof. intros HA HB. apply Rabs_bound in HA, HB. unfold new_scale_of. cbv zeta. rcases; try lra. reflexivity. Qed.
End Numbers.

(** ** Reading a number that is stored in any form *)
Local Open Scope Z_scope.
Local Open Scope list_scope.
Lemma words_no_number f : Forall (fun p => parse_dec (fst p) = None) (words f).
Proof. destruct f; vm_compute; repeat constructor. Qed.
Lemma shows_parse f k v q r : is_switch k = false -> word v -> parse_dec v = Some q -> shows (words f) k v r -> exists q', parse_dec r = Some q' /\ (q' == q)%Q.
Proof.
  intros SW W E. unfold shows. rewrite SW. intros [(t & V & _)|[_ [->|[J|(_ & x & q' & E1 & E2 & E3)]]]].
  - exfalso. subst v. inversion W; subst. lia.
  - exists q. split; [exact E|reflexivity].
  - exfalso. pose proof (words_no_number f) as F. rewrite Forall_forall in F. specialize (F _ J). cbn [fst] in F. congruence.
  - exists q'. split; [exact E2|]. rewrite E in E1. injection E1 as <-. symmetry. exact E3.
Qed.
Lemma rounds_near fl x : rounds fl -> (Qabs x <= 10 ^ 13)%Q -> (Rabs (Q2R (fl x) - Q2R x) <= / 10 ^ 15 * Rabs (Q2R x) + / 10 ^ 30)%R.
Proof.
  intros [_ R] B. specialize (R x). assert (B' : (Qabs x <= 10 ^ 300)%Q) by (eapply Qle_trans; [exact B|]; apply Qle_bool_iff; vm_compute; reflexivity).
  specialize (R B'). assert (E : (Qabs (fl x - x) <= (1 # 1000000000000000) * Qabs x + (1 # 1000000000000000000000000000000))%Q).
  { eapply Qle_trans; [exact R|]. apply Qplus_le_r. apply Qle_bool_iff. vm_compute. reflexivity. }
  apply Qle_Rle in E. rewrite Q2R_plus, Q2R_mult in E.
  assert (AB : forall y, Q2R (Qabs y) = Rabs (Q2R y)).
  { intro y. apply Qabs_case; intro H; apply Qle_Rle in H; rewrite RMicromega.Q2R_0 in H; [rewrite Rabs_pos_eq|rewrite Rabs_left1, Q2R_opp]; lra. }
  rewrite !AB, Q2R_minus in E. assert (E1 : Q2R (1 # 1000000000000000) = (/ 10 ^ 15)%R) by (unfold Q2R; cbn [Qnum Qden]; lra).
  assert (E2 : Q2R (1 # 1000000000000000000000000000000) = (/ 10 ^ 30)%R) by (unfold Q2R; cbn [Qnum Qden]; lra).
  rewrite E1, E2 in E. exact E.
Qed.

(** ** One attempt *)
Section Attempt.
Context {D : Type} {dev : device D} {fl : Q -> Q} {uniform : Z -> Z -> list Q} {utf8 : list Z -> option pystr} {f : family}
  {reg : D -> pystr -> pystr} {record : D -> pystr -> preamble Q * list Z} {i : Z} {cmd : io D unit} {lowest highest : Q}.
Let c := Analog i.
Hypothesis S : sends_waveforms (to_float fl) utf8 dev f reg record.
Hypothesis FL : rounds fl.
Hypothesis DI : displays dev reg record c cmd lowest highest.
Lemma read_setting n k q w : settable k -> is_switch k = false -> w_inst w = Some n -> word (reg (w_dev w) k) -> parse_dec (reg (w_dev w) k) = Some q ->
  exists q' w', get_float dev fl k w = (Ok (fl q'), w') /\ (q' == q)%Q /\ w_inst w' = Some n /\ (forall k', reg (w_dev w') k' = reg (w_dev w) k').
Proof.
  intros P SW I W E. destruct (ask_ok dev (words f) reg (sends_stores _ _ _ _ _ _ S) n k w P (or_introl W) I) as (r & w' & A & I' & R & SH).
  destruct (shows_parse f k _ q r SW W E SH) as (q' & E' & Q'). exists q', w'. unfold get_float, iobind, lift, to_float. rewrite A, E'. auto.
Qed.
Definition touched : list pystr := [str "ACQUIRE:STATE"; str "ACQUIRE:STOPAFTER"; str "TRIGGER"; str "HEADER"] ++ map fst (transfer f (alias c)).
Definition the_attempts := attempts (n_div_vert f) (get_position dev fl (alias c)) (get_scale dev fl (alias c)) (set_position dev (alias c)) (set_scale dev (alias c))
    (single dev cmd true 20) (read_vertical dev fl uniform utf8 f (alias c)).
Definition has (w : world D) (s p : Q) : Prop := stands_at reg (w_dev w) c s p.
Lemma settable_scale : settable (scale_key c). Proof. apply (plain_key_of c "SCALE"). chars. Qed.
Lemma settable_position : settable (position_key c). Proof. apply (plain_key_of c "POSITION"). chars. Qed.
Lemma attempt k n w s p : w_inst w = Some n -> has w s p -> (0 < Q2R s)%R ->
  exists pt st w' m d codes, (pt == fl p)%Q /\ (st == fl s)%Q /\ 127 <= m /\ digitises m s p lowest highest codes /\
    map Q2R d = map (fun x => IZR x / (2 * IZR m))%R codes /\ w_inst w' = Some n /\
    (forall key, ~ In key touched -> reg (w_dev w') key = reg (w_dev w) key) /\
    the_attempts (Datatypes.S k) w = iobind (lift (correction 10 pt st d)) (fun x => match x with
      | Some (s', p') => iobind (set_scale dev (alias c) s') (fun _ => iobind (set_position dev (alias c) p') (fun _ => the_attempts k))
      | None => ret k end) w'.
Proof.
  intros I (WS & ES & WP & EP) SP.
  destruct (read_setting n (position_key c) p w settable_position (channel_not_switch c "POSITION") I WP EP) as (p0 & w1 & A1 & Q1 & I1 & R1).
  destruct (read_setting n (scale_key c) s w1 settable_scale (channel_not_switch c "SCALE") I1) as (s0 & w2 & A2 & Q2 & I2 & R2);
    [rewrite R1; assumption|rewrite R1; assumption|].
  destruct (displays_single _ _ _ _ _ _ _ DI n w2 I2) as (w3 & A3 & I3 & R3 & D3).
  destruct (D3 s p) as [DG NY]; [apply Rlt_Qlt; rewrite RMicromega.Q2R_0; exact SP|rewrite R2, R1; assumption|rewrite R2, R1; assumption|].
  destruct (C60_waveform _ _ _ _ _ _ _ _ _ uniform c false n w3 S I3) as (wave & w4 & A4 & RES & H4 & _ & R4 & _ & I4).
  set (pre := fst (record (w_dev w3) (alias c))) in * ; set (codes := snd (record (w_dev w3) (alias c))) in * ; set (m := limit (p_size pre)) in * .
  assert (PM : 0 < m) by apply limit_pos. assert (M127 : 127 <= m) by (unfold m, limit; destruct (_ =? _); lia).
  destruct RES as (YA & _ & _ & _ & _ & YMIN & YMAX & _).
  change (y_axis wave = map (volts pre) codes) in YA. change (y_clip_min wave = volts pre (- m)) in YMIN. change (y_clip_max wave = volts pre m) in YMAX.
  assert (NR : Q2R (p_ymult pre) <> 0%R) by (intro X; apply NY, eqR_Qeq; rewrite X, RMicromega.Q2R_0; reflexivity).
  assert (NL : Q2R (volts pre (- m)) <> Q2R (volts pre m)) by (intro X; apply eqR_Qeq, (volts_same pre m PM) in X; exact (NY X)).
  pose proof (screen_hom (map (volts pre) codes) (volts pre (- m)) (volts pre m)) as SH. rewrite screen_ok in SH by exact NL.
  destruct (screen (map (volts pre) codes) (volts pre (- m)) (volts pre m)) as [d|e] eqn:SC; [|discriminate SH]. cbn [rmap] in SH.
  assert (DE : map Q2R d = map (fun x => IZR x / (2 * IZR m))%R codes).
  { assert (X : map Q2R d = map (fun y => height (Q2R (volts pre (- m))) (Q2R (volts pre m)) y - 1 / 2)%R (map Q2R (map (volts pre) codes))) by congruence.
    rewrite X, !map_map. apply map_ext. intro x. rewrite height_code by assumption. apply IZR_lt in PM. field. lra. }
  exists (fl p0), (fl s0), w4, m, d, codes. destruct FL as [PR _].
  split; [apply PR; exact Q1|]. split; [apply PR; exact Q2|]. split; [exact M127|]. split; [exact DG|]. split; [exact DE|]. split; [exact I4|]. split.
  - intros key N. rewrite R4, R3, R2, R1; [reflexivity|..]; intro X; apply N; unfold touched; cbn [app In]; cbn [In] in X; intuition auto.
  - unfold the_attempts. replace (n_div_vert f) with 10 by (destruct f; reflexivity). cbn [attempts]. change (get_position dev fl (alias c)) with (get_float dev fl (position_key c)).
    change (get_scale dev fl (alias c)) with (get_float dev fl (scale_key c)).
    unfold iobind at 1. rewrite A1. unfold iobind at 1. rewrite A2. unfold iobind at 1. rewrite A3.
    unfold iobind at 1. unfold read_vertical at 1, iobind at 1. rewrite A4. unfold ret at 1. rewrite YA, YMIN, YMAX.
    unfold iobind at 1. unfold lift at 1. rewrite SC.
    reflexivity.
Qed.

(** ** Two attempts at most *)
Local Open Scope R_scope.
Lemma clipped_inside x : Rabs (Q2R x) <= 49 / 100 -> clipped x = x.
Proof.
  intro B. apply Rabs_bound in B. unfold clipped.
  assert (E : forall a b, Qle_bool a b = true -> Q2R a <= Q2R b) by (intros a b H; apply Qle_Rle, Qle_bool_iff, H).
  assert (HF : Q2R (1 # 2) = / 2) by (unfold Q2R; cbn [Qnum Qden]; lra).
  destruct (Qle_bool (1 # 2) x) eqn:H1; [apply E in H1; lra|].
  destruct (Qle_bool x (- (1 # 2))) eqn:H2; [apply E in H2; rewrite Q2R_opp in H2; lra|]. reflexivity.
Qed.
Lemma height_R s p v : Q2R s <> 0 -> Q2R (screen_height s p v) = (Q2R v / Q2R s + Q2R p) / 10.
Proof.
  intro N. unfold screen_height. rewrite Q2R_div, Q2R_plus, Q2R_div by (discriminate || apply Q2R_nz, N).
  replace (Q2R 10) with 10 by (unfold Q2R; cbn [Qnum Qden inject_Z]; lra). reflexivity.
Qed.
Lemma extremes m d codes s p : (127 <= m)%Z -> digitises m s p lowest highest codes -> map Q2R d = map (fun x => IZR x / (2 * IZR m)) codes ->
  Q2R s <> 0 -> Rabs (Q2R (screen_height s p lowest)) <= 49 / 100 -> Rabs (Q2R (screen_height s p highest)) <= 49 / 100 ->
  exists A B, py_min (map Q2R d) = Ok A /\ py_max (map Q2R d) = Ok B /\
    Rabs (A - Q2R (screen_height s p lowest)) <= 1 / 254 /\ Rabs (B - Q2R (screen_height s p highest)) <= 1 / 254.
Proof.
  intros M (lo & hi & Il & Ih & LH & BL & BH) DE NS HL HH. apply IZR_le in M.
  destruct (min_max (map Q2R d)) as (A & B & EA & EB & IA & IB & AB).
  { rewrite DE. destruct codes; [destruct Il|discriminate]. }
  exists A, B. split; [exact EA|]. split; [exact EB|].
  assert (AA : forall y, Q2R (Qabs y) = Rabs (Q2R y)).
  { intro y. apply Qabs_case; intro H; apply Qle_Rle in H; rewrite RMicromega.Q2R_0 in H; [rewrite Rabs_pos_eq|rewrite Rabs_left1, Q2R_opp]; lra. }
  assert (IN : forall x, In x codes -> In (IZR x / (2 * IZR m)) (map Q2R d)) by (intros x J; rewrite DE; apply (in_map (fun x => IZR x / (2 * IZR m))), J).
  assert (MONO : forall x y : Z, (x <= y)%Z -> IZR x / (2 * IZR m) <= IZR y / (2 * IZR m)).
  { intros x y L. apply IZR_le in L. apply Rmult_le_compat_r; [|exact L]. left. apply Rinv_0_lt_compat. lra. }
  assert (VA : A = IZR lo / (2 * IZR m)).
  { apply Rle_antisym; [apply (AB _ (IN _ Il))|]. rewrite DE in IA. apply in_map_iff in IA. destruct IA as (x & <- & J). apply MONO, LH, J. }
  assert (VB : B = IZR hi / (2 * IZR m)).
  { apply Rle_antisym; [|apply (AB _ (IN _ Ih))]. rewrite DE in IB. apply in_map_iff in IB. destruct IB as (x & <- & J). apply MONO, LH, J. }
  assert (NEAR : forall x h, Rabs (Q2R h) <= 49 / 100 -> (Qabs (inject_Z x - inject_Z (2 * m) * clipped h) <= 1)%Q -> Rabs (IZR x / (2 * IZR m) - Q2R h) <= 1 / 254).
  { intros x h Bh Q. rewrite (clipped_inside h Bh) in Q. apply Qle_Rle in Q. rewrite AA, Q2R_minus, Q2R_mult, !Q2R_Z, mult_IZR in Q.
    change (Q2R 1) with (1 * / 1) in Q. apply Rabs_bound in Q. apply Rabs_bound.
    assert (X : IZR x = IZR x / (2 * IZR m) * (2 * IZR m)) by (field; lra). set (y := IZR x / (2 * IZR m)) in * . rewrite X in Q. split; nra. }
  subst A B. split; apply NEAR; assumption.
Qed.
Lemma correct pt st d A B : py_min (map Q2R d) = Ok A -> py_max (map Q2R d) = Ok B -> Q2R st <> 0 ->
  match new_scale_of (Q2R st) A B with
  | None => correction 10 pt st d = Ok None
  | Some s' => exists sq pq, correction 10 pt st d = Ok (Some (sq, pq)) /\ Q2R sq = s' /\ Q2R pq = (Q2R pt - 10 * ((A + B) / 2)) * Q2R st / s'
  end.
Proof.
  intros EA EB N. pose proof (correction_hom 10 pt st d) as H. rewrite (correction_ok _ _ _ _ _ _ EA EB N) in H.
  destruct (correction 10 pt st d) as [[[sq pq]|]|e]; cbn [rmap option_map] in H; destruct (new_scale_of (Q2R st) A B) as [s'|]; try discriminate H.
  - exists sq, pq. split; [reflexivity|]. unfold both in H. cbn [fst snd] in H. split; congruence.
  - reflexivity.
Qed.
Lemma sci_near x : exists v, parse_dec (sci 6 x) = Some v /\ Rabs (Q2R v - Q2R x) <= 5 / 10 ^ 7 * Rabs (Q2R x).
Proof.
  destruct (C32_relative_error x) as (v & E & B). exists v. split; [exact E|]. apply Qle_Rle in B. rewrite Q2R_mult in B.
  assert (AA : forall y, Q2R (Qabs y) = Rabs (Q2R y)).
  { intro y. apply Qabs_case; intro H; apply Qle_Rle in H; rewrite RMicromega.Q2R_0 in H; [rewrite Rabs_pos_eq|rewrite Rabs_left1, Q2R_opp]; lra. }
  rewrite !AA, Q2R_minus in B. replace (Q2R (5 # 10000000)) with (5 / 10 ^ 7) in B by (unfold Q2R; cbn [Qnum Qden]; lra). exact B.
Qed.
Lemma keys_apart : scale_key c <> position_key c /\ ~ In (scale_key c) touched /\ ~ In (position_key c) touched.
Proof.
  split; [intro E; apply app_inv_head in E; discriminate E|].
  assert (N : forall k, hd 0%Z k = 67%Z -> ~ In k touched).
  { intros k H J. assert (F : Forall (fun y => hd 0%Z y <> 67%Z) touched).
    { unfold touched. clear. induction f; cbn [transfer app map fst]; repeat (constructor; [discriminate|]); constructor. }
    rewrite Forall_forall in F. exact (F k J H). }
  split; apply N; reflexivity.
Qed.
Definition inside (s p : Q) (margin least : R) : Prop :=
  - margin <= Q2R (screen_height s p lowest) /\ Q2R (screen_height s p highest) <= margin /\
  least <= Q2R (screen_height s p highest) - Q2R (screen_height s p lowest).
Lemma two_attempts k n w s p : w_inst w = Some n -> has w s p -> / 10 ^ 12 <= Q2R s <= 10 ^ 12 -> Rabs (Q2R p) <= 100 ->
  inside s p (44 / 100) (1 / 5) ->
  exists left w' s2 p2, the_attempts (Datatypes.S (Datatypes.S k)) w = (Ok left, w') /\ (k <= left)%nat /\ w_inst w' = Some n /\ has w' s2 p2 /\
    inside s2 p2 (45 / 100) (74 / 100) /\
    (forall key, ~ In key (scale_key c :: position_key c :: touched) -> reg (w_dev w') key = reg (w_dev w) key).
Proof.
  intros I H [SL SU] PB (IA & IB & IL).
  assert (P12 : 0 < / 10 ^ 12) by (apply Rinv_0_lt_compat; lra).
  destruct (attempt (Datatypes.S k) n w s p I H) as (pt & st & w1 & m & d & codes & QP & QS & M & DG & DE & I1 & R1 & E1); [lra|].
  assert (NS : Q2R s <> 0) by lra.
  assert (HL : Rabs (Q2R (screen_height s p lowest)) <= 49 / 100) by (apply Rabs_bound; lra).
  assert (HH : Rabs (Q2R (screen_height s p highest)) <= 49 / 100) by (apply Rabs_bound; lra).
  destruct (extremes m d codes s p M DG DE NS HL HH) as (A & B & EA & EB & BA & BB).
  apply Qeq_eqR in QP, QS.
  assert (SM : forall x, Rabs (Q2R x) <= 10 ^ 13 -> (Qabs x <= 10 ^ 13)%Q).
  { intros x Hx. apply Rabs_bound in Hx. apply Qabs_Qle_condition.
    assert (T : Q2R (10 ^ 13) = 10 ^ 13) by (change (10 ^ 13)%Q with (inject_Z (10 ^ 13)); rewrite Q2R_Z; change (10 ^ 13)%Z with 10000000000000%Z; lra).
    split; apply Rle_Qle; rewrite ?Q2R_opp, T; lra. }
  assert (ST : Rabs (Q2R st - Q2R s) <= / 10 ^ 9 * Q2R s).
  { rewrite QS. eapply Rle_trans; [apply (rounds_near fl s FL), SM; apply Rabs_bound; lra|]. rewrite Rabs_pos_eq by lra.
    assert (X : / 10 ^ 30 <= / 10 ^ 15 * Q2R s) by (apply Rle_trans with (/ 10 ^ 15 * / 10 ^ 12); [lra|apply Rmult_le_compat_l; lra]). lra. }
  assert (PT : Rabs (Q2R pt - Q2R p) <= / 10 ^ 9).
  { rewrite QP. eapply Rle_trans; [apply (rounds_near fl p FL), SM; apply Rabs_bound; apply Rabs_bound in PB; lra|]. lra. }
  assert (NST : Q2R st <> 0) by (apply Rabs_bound in ST; lra).
  pose proof (correct pt st d A B EA EB NST) as CO.
  assert (SP : 0 < Q2R s) by lra.
  pose proof (fun s2 p2 => fits_after (Q2R s) (Q2R st) (Q2R p) (Q2R pt) _ _ A B _ _ s2 p2 SP ST PB PT (height_R s p lowest NS) (height_R s p highest NS) IA IB IL BA BB) as FIT.
  destruct (new_scale_of (Q2R st) A B) as [s'|].
  - destruct CO as (sq & pq & CO & ES & EP). rewrite CO in E1. unfold iobind at 1, lift at 1 in E1.
    destruct (sci_near sq) as (s2 & PS & NS2). destruct (sci_near pq) as (p2 & PP & NP2). rewrite ES in NS2. rewrite EP in NP2.
    destruct (FIT (Q2R s2) (Q2R p2) NS2 NP2) as (S5 & FL2 & FH2). clear FIT.
    destruct keys_apart as (KA & KS & KP).
    destruct (send_ok dev (words f) reg (sends_stores _ _ _ _ _ _ S) n (scale_key c) (sci 6 sq) w1 settable_scale (or_introl (word_sci sq)) I1) as (w2 & E2 & I2 & R2 & F2).
    destruct (send_ok dev (words f) reg (sends_stores _ _ _ _ _ _ S) n (position_key c) (sci 6 pq) w2 settable_position (or_introl (word_sci pq)) I2) as (w3 & E3 & I3 & R3 & F3).
    unfold regs in * .
    unfold iobind at 1 in E1. change (set_scale dev (alias c) sq w1) with (send dev (scale_key c ++ str " " ++ sci 6 sq) w1) in E1. rewrite E2 in E1.
    unfold iobind at 1 in E1. change (set_position dev (alias c) pq w2) with (send dev (position_key c ++ str " " ++ sci 6 pq) w2) in E1. rewrite E3 in E1.
    assert (H3 : has w3 s2 p2).
    { unfold has, stands_at. rewrite F3, R2, R3 by exact KA. split; [apply word_sci|]. split; [exact PS|]. split; [apply word_sci|exact PP]. }
    assert (S2P : 0 < Q2R s2) by lra.
    destruct (attempt k n w3 s2 p2 I3 H3 S2P) as (pt2 & st2 & w4 & m2 & d2 & codes2 & QP2 & QS2 & M2 & DG2 & DE2 & I4 & R4 & E4).
    assert (NS2' : Q2R s2 <> 0) by lra.
    rewrite <- (height_R s2 p2 lowest NS2') in FL2. rewrite <- (height_R s2 p2 highest NS2') in FH2.
    apply Rabs_bound in FL2, FH2.
    destruct (extremes m2 d2 codes2 s2 p2 M2 DG2 DE2 NS2') as (A2 & B2 & EA2 & EB2 & BA2 & BB2); [apply Rabs_bound; lra|apply Rabs_bound; lra|].
    apply Rabs_bound in BA2, BB2.
    assert (NST2 : Q2R st2 <> 0).
    { apply Qeq_eqR in QS2. rewrite QS2.
      assert (U2 : Rabs (Q2R s2) <= 10 ^ 13) by (apply Rabs_bound; lra).
      pose proof (rounds_near fl s2 FL (SM _ U2)) as X. apply Rabs_bound in X. rewrite Rabs_pos_eq in X by lra. nra. }
    pose proof (correct pt2 st2 d2 A2 B2 EA2 EB2 NST2) as CO2. rewrite (accepted (Q2R st2) A2 B2) in CO2; [|apply Rabs_bound; lra|apply Rabs_bound; lra].
    rewrite CO2 in E4. exists k, w4, s2, p2. split; [rewrite E1; exact E4|]. split; [apply Nat.le_refl|]. split; [exact I4|].
    split; [|split].
    + unfold has, stands_at in * . rewrite !R4 by assumption. exact H3.
    + repeat split; lra.
    + intros key N. assert (N' : key <> scale_key c /\ key <> position_key c /\ ~ In key touched).
      { repeat split; intro X; apply N; [left|right; left|right; right; exact X]; congruence. }
      destruct N' as (N1 & N2 & N3). rewrite R4, F3, F2, R1 by assumption. reflexivity.
  - rewrite CO in E1. exists (Datatypes.S k), w1, s, p. split; [exact E1|]. split; [lia|]. split; [exact I1|]. split; [|split].
    + destruct keys_apart as (_ & KS & KP). unfold has, stands_at in * . rewrite !R1 by assumption. exact H.
    + specialize (FIT 0 0). cbv beta in FIT. apply Rabs_bound in BA, BB. repeat split; lra.
    + intros key N. apply R1. intro J. apply N. right. right. exact J.
Qed.
End Attempt.
Lemma words_no_int f n r : ~ In (str_int n, r) (words f).
Proof.
  assert (F : Forall (fun p => parse_int (fst p) = None) (words f)) by (destruct f; vm_compute; repeat constructor).
  intro J. rewrite Forall_forall in F. specialize (F _ J). cbn [fst] in F. rewrite parse_str_int in F. discriminate F.
Qed.
Lemma inside_fits lowest highest s p margin least : fits_screen s p lowest highest margin least <-> inside (lowest := lowest) (highest := highest) s p (Q2R margin) (Q2R least).
Proof.
  unfold fits_screen, inside. rewrite <- Q2R_opp, <- Q2R_minus. split; intros (A & B & C); repeat split; (apply Qle_Rle || apply Rle_Qle); assumption.
Qed.
