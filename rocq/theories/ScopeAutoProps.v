(** C65: autoscaling a channel of a scope. *)
From Coq Require Import String ZArith Bool QArith Qabs Qreals Reals Lra Lia List.
Import ListNotations.
From Verif Require Import Base Num PyStr PyStrProofs IOModel EquipModel TekModel TekSpec ScopeModel ScopeSpec ScopeProofs ScopeUseModel ScopeUseSpec
  ScopeAcqProps ScopeWaveProps AutoModel ScopeAutoModel ScopeAutoSpec ScopeAutoProofs ScopeFitProofs.
Local Open Scope Z_scope.
Local Open Scope list_scope.

(** ** On any instrument *)
(** Whatever the instrument answers and however the call ends, nothing is sent
    but the commands of [may_write]: no setting of another channel, no trigger
    setting and no time base setting except the record length is touched.  [U]
    is what the function of the user does. *)
Theorem C65_conversation : forall D (dev : device D) fl uniform utf8 U f name cmd w res w',
  (forall m, cmd = Some m -> does m U) -> autoscale_channel dev fl uniform utf8 f name cmd w = (res, w') ->
  exists evs, w_log w' = w_log w ++ evs /\ Forall (fun ev => U ev \/ may_happen f name ev) evs.
Proof. intros D dev fl uniform utf8 U f name cmd w res w' C E. exact (autoscale_does dev U f name fl uniform utf8 cmd C w res w' E). Qed.
Print Assumptions C65_conversation.

(** Acquisitions are counted by the attempts. *)
Lemma attempts_counted D (dev : device D) fl uniform utf8 f stopped runs taken c m n k w left w' :
  acquires dev stopped runs taken -> reading_starts_none dev runs -> no_restart runs m -> w_inst w = Some n ->
  attempts (n_div_vert f) (get_position dev fl (alias c)) (get_scale dev fl (alias c)) (set_position dev (alias c)) (set_scale dev (alias c))
    (single dev m true 20) (read_vertical dev fl uniform utf8 f (alias c)) k w = (Ok left, w') -> left <> 0%nat ->
  exists v4 p s data lo hi d, (exists v3, single dev m true 20 v3 = (Ok tt, v4)) /\
    w_inst v4 = Some n /\ (left < k)%nat /\ (runs (w_dev v4) + left = runs (w_dev w) + k)%nat /\ read_vertical dev fl uniform utf8 f (alias c) v4 = (Ok (data, lo, hi), w') /\
    w_inst w' = Some n /\ runs (w_dev w') = runs (w_dev v4) /\ screen data lo hi = Ok d /\ correction (n_div_vert f) p s d = Ok None.
Proof.
  intros A RN CMD I E NL.
  set (Inv := fun i (v : world D) => w_inst v = Some n /\ runs (w_dev v) = (runs (w_dev w) + i)%nat).
  assert (KI : forall X (m : io D X), starts_none (runs := runs) m -> forall i v x v', Inv i v -> m v = (Ok x, v') -> Inv i v').
  { intros X m0 SN i v x v' [IV RV] EV. destruct (SN _ _ _ EV) as [I' R']. split; congruence. }
  assert (NG : forall s, starts_none (runs := runs) (get_float dev fl (alias c ++ 58 :: s))).
  { intro s. apply none_bind; [apply (none_ask A)|]. intro. apply none_lift. }
  assert (NS : forall s v, starts_none (runs := runs) (set_float dev (alias c ++ 58 :: s) v)).
  { intros s v. apply (none_send A). rewrite <- app_assoc. apply alias_key. }
  assert (SG : forall i v v', Inv i v -> single dev m true 20 v = (Ok tt, v') -> Inv (Datatypes.S i) v').
  { intros i v v' [IV RV] EV. destruct (C59_one_waveform _ _ _ _ _ _ _ _ _ _ A CMD EV) as (_ & _ & R'). split; [|lia].
    rewrite (single_inst A _ _ _ _ _ CMD EV). exact IV. }
  edestruct (attempts_ok (n_div_vert f) (get_position dev fl (alias c)) (get_scale dev fl (alias c)) (set_position dev (alias c)) (set_scale dev (alias c))
    (single dev m true 20) (read_vertical dev fl uniform utf8 f (alias c)) Inv) as
    (j & v3 & v4 & p & s & data & lo & hi & d & J & I3 & SI & I4 & RD & SC & CO).
  - intros i v x v' IV EV. exact (KI _ _ (NG (str "POSITION")) _ _ _ _ IV EV).
  - intros i v x v' IV EV. exact (KI _ _ (NG (str "SCALE")) _ _ _ _ IV EV).
  - intros i v x v' IV EV. exact (KI _ _ (NS (str "POSITION") x) _ _ _ _ IV EV).
  - intros i v x v' IV EV. exact (KI _ _ (NS (str "SCALE") x) _ _ _ _ IV EV).
  - exact SG.
  - intros i v x v' IV EV. exact (KI _ _ (none_read A RN fl uniform utf8 f (alias c)) _ _ _ _ IV EV).
  - instantiate (1 := w). instantiate (1 := 0%nat). split; [exact I|lia].
  - exact E.
  - exact NL.
  - destruct (KI _ _ (none_read A RN fl uniform utf8 f (alias c)) _ _ _ _ I4 RD) as [I5 R5]. destruct I4 as [I4 R4].
    exists v4, p, s, data, lo, hi, d. split; [exists v3; exact SI|]. split; [exact I4|]. split; [lia|]. split; [lia|]. split; [exact RD|]. split; [exact I5|]. split; [lia|]. auto.
Qed.

(** ** On an instrument that acquires and sends its waveforms *)
(** If autoscale returns, then the waveform it read last was well placed on the
    digitiser.  It was taken in the last of at most nine acquisitions, each
    started by this call, and the settings it was taken at are still in place,
    except that the record length is the one before the call. *)
Theorem C65_placed : forall D (dev : device D) fl uniform utf8 f reg record stopped runs taken c cmd n w w',
  sends_waveforms (to_float fl) utf8 dev f reg record -> acquires dev stopped runs taken -> reading_starts_none dev runs ->
  (forall m, cmd = Some m -> no_restart runs m) -> w_inst w = Some n ->
  autoscale_channel dev fl uniform utf8 f (alias c) cmd w = (Ok tt, w') ->
  exists k taken_at points,
    (1 <= k <= 9)%nat /\ stopped (w_dev taken_at) /\ taken (w_dev taken_at) = 1 /\ runs (w_dev taken_at) = (runs (w_dev w) + k)%nat /\
    well_digitised (limit (p_size (fst (record (w_dev taken_at) (alias c))))) (snd (record (w_dev taken_at) (alias c))) /\
    runs (w_dev w') = runs (w_dev taken_at) /\
    (forall key, ~ In key ([str "HEADER"; str "HORIZONTAL:RECORDLENGTH"; str "HORIZONTAL:MODE"] ++ map fst (transfer f (alias c))) ->
       reg (w_dev w') key = reg (w_dev taken_at) key) /\
    reg (w_dev w') (str "HEADER") = str "0" /\
    (exists w1, get_time_points dev w = (Ok points, w1)) /\ reg (w_dev w') (str "HORIZONTAL:RECORDLENGTH") = str_int points.
Proof.
  intros D dev fl uniform utf8 f reg record stopped runs taken c cmd n w w' S A RN NC I E.
  unfold autoscale_channel, autoscale in E.
  unfold iobind at 1 in E. destruct (get_time_points dev w) as [[points|e] w1] eqn:E1; [|discriminate E].
  unfold iobind at 1 in E. destruct (set_time_points dev f 1000000 w1) as [[[]|e] w2] eqn:E2; [|discriminate E].
  unfold iobind at 1 in E. destruct (attempts _ _ _ _ _ _ _ 10%nat w2) as [[left|e] w3] eqn:E3; [|discriminate E].
  unfold iobind at 1 in E. destruct (set_time_points dev f points w3) as [[[]|e] w4] eqn:E4; [|discriminate E].
  assert (NL : left <> 0%nat) by (intros ->; discriminate E).
  assert (W4 : w4 = w').
  { destruct left; [contradiction|]. unfold ret in E. apply pair_equal_spec in E. apply E. }
  subst w4. clear E.
  assert (I2 : w_inst w2 = Some n /\ runs (w_dev w2) = runs (w_dev w)).
  { destruct (none_bind _ _ (none_ask A _) (fun x => none_lift _) _ _ _ E1) as [I1 R1]. destruct (none_points A f 1000000 _ _ _ E2) as [I2 R2]. split; congruence. }
  destruct I2 as [I2 R2].
  assert (CMD : no_restart runs (match cmd with Some m => m | None => sleep end)).
  { destruct cmd as [m|]; [exact (NC m eq_refl)|]. intros v v' EV. destruct (none_sleep (runs := runs) _ _ _ EV). auto. }
  destruct (attempts_counted _ _ _ _ _ _ _ _ _ _ _ _ _ _ _ _ A RN CMD I2 E3 NL) as (v4 & p & s & data & lo & hi & d & (v3 & SI) & I4 & LT & CT & RD & I5 & R5 & SC & CO).
  destruct (C59_one_waveform _ _ _ _ _ _ _ _ _ _ A CMD SI) as (ST & TK & _).
    destruct (C60_waveform _ _ _ _ _ _ _ _ _ uniform c false n v4 S I4) as (wave & v5 & RW & RES & H0 & TR & FR & RC).
    unfold read_vertical, iobind in RD. rewrite RW in RD. unfold ret in RD.
    assert (V5 : v5 = w3) by congruence. subst v5.
    destruct RES as (YA & _ & _ & _ & _ & YMIN & YMAX & _).
    assert (DE : data = y_axis wave) by congruence. assert (LE : lo = y_clip_min wave) by congruence. assert (HE : hi = y_clip_max wave) by congruence.
    set (pre := fst (record (w_dev v4) (alias c))) in * ; set (codes := snd (record (w_dev v4) (alias c))) in * .
    set (m := limit (p_size pre)) in * .
    assert (PM : 0 < m) by apply limit_pos.
    change (y_axis wave = map (volts pre) codes) in YA. change (y_clip_min wave = volts pre (- m)) in YMIN. change (y_clip_max wave = volts pre m) in YMAX.
    assert (WD : well_digitised m codes).
    { rewrite DE, LE, HE, YA, YMIN, YMAX in SC.
      assert (NY : ~ (p_ymult pre == 0)%Q).
      { intro X. apply (volts_same pre m PM) in X. destruct codes as [|k0 rest] eqn:CE.
        - cbn [map screen mapM] in SC. injection SC as <-. discriminate CO.
        - exact (screen_flat _ _ _ _ _ X SC). }
      apply (placed_digitised pre m codes PM NY). refine (correction_none _ _ _ _ _ _ _ _ SC CO).
      intro X. apply NY. apply (volts_same pre m PM). exact X. }
    destruct (set_points_ok (sends_stores _ _ _ _ _ _ S) f n points w3 I5) as (w5 & E5 & _ & RL & FR5).
    rewrite E4 in E5. assert (w5 = w') by congruence. subst w5.
    exists (10 - left)%nat, v4, points. split; [lia|]. split; [exact ST|]. split; [exact TK|]. split; [lia|]. split; [exact WD|].
    destruct (none_points A f points _ _ _ E4) as [_ R6].
    split; [congruence|]. split; [|split; [|split; [exists w1; reflexivity|exact RL]]].
    + intros key NI. rewrite FR5, FR; [reflexivity| | | |]; intro X; apply NI; subst; cbn [app In]; auto 10.
    + rewrite FR5; [exact H0| |]; discriminate.
Qed.
Print Assumptions C65_placed.

(** ** On a scope showing a signal *)
(** A signal that is inside the middle 88 % of the screen and covers at least a
    fifth of it is placed with at most two acquisitions, although settings are
    stored with seven digits and samples have the resolution of the digitiser:
    at the end it covers 74 % to 90 % of the screen, in its middle 90 %.  All
    other settings, the record length among them, are as before, apart from
    those of acquisitions and transfers. *)
Theorem C65_converges : forall D (dev : device D) fl uniform utf8 f reg record i cmd lowest highest n w scale position points,
  sends_waveforms (to_float fl) utf8 dev f reg record -> rounds fl ->
  displays dev reg record (Analog i) (match cmd with Some m => m | None => sleep end) lowest highest -> w_inst w = Some n ->
  stands_at reg (w_dev w) (Analog i) scale position -> reg (w_dev w) (str "HORIZONTAL:RECORDLENGTH") = str_int points ->
  ((1 # 1000000000000) <= scale <= inject_Z 1000000000000)%Q -> (Qabs position <= 100)%Q ->
  fits_screen scale position lowest highest (44 # 100) (1 # 5) ->
  exists w' scale' position', autoscale_channel dev fl uniform utf8 f (alias (Analog i)) cmd w = (Ok tt, w') /\
    stands_at reg (w_dev w') (Analog i) scale' position' /\
    fits_screen scale' position' lowest highest (45 # 100) (74 # 100) /\
    reg (w_dev w') (str "HORIZONTAL:RECORDLENGTH") = str_int points /\
    (forall stopped runs taken, acquires dev stopped runs taken -> reading_starts_none dev runs -> (forall m, cmd = Some m -> no_restart runs m) ->
       (runs (w_dev w') <= runs (w_dev w) + 2)%nat) /\
    forall key, ~ In key ([scale_key (Analog i); position_key (Analog i); str "HORIZONTAL:RECORDLENGTH"; str "HORIZONTAL:MODE"; str "ACQUIRE:STATE";
                           str "ACQUIRE:STOPAFTER"; str "TRIGGER"; str "HEADER"] ++ map fst (transfer f (alias (Analog i)))) ->
      reg (w_dev w') key = reg (w_dev w) key.
Proof.
  intros D dev fl uniform utf8 f reg record i cmd lowest highest n w scale position points S FL DI I ST RL SB PB FI.
  pose proof (sends_stores _ _ _ _ _ _ S) as SS.
  assert (SK : settable (str "HORIZONTAL:RECORDLENGTH")) by (apply settable_str; reflexivity).
  destruct (get_int_knows dev (words f) reg SS n [(str "HORIZONTAL:RECORDLENGTH", str_int points)] (str "HORIZONTAL:RECORDLENGTH") points w) as (w1 & E1 & K1).
  { split; [exact I|]. intros k v [E|[]]. injection E as <- <-. exact RL. } { left. reflexivity. } { exact SK. } { reflexivity. } { apply words_no_int. }
  assert (R1 : forall k, reg (w_dev w1) k = reg (w_dev w) k).
  { intro k. destruct (ask_ok dev (words f) reg SS n (str "HORIZONTAL:RECORDLENGTH") w SK) as (r & w1' & A & _ & R & _);
      [unfold regs; rewrite RL; left; apply word_str_int|exact I|].
    unfold get_int, iobind, lift in E1. rewrite A in E1. destruct (to_int r); [|discriminate E1]. assert (w1' = w1) by congruence. subst w1'. apply R. }
  destruct K1 as [I1 _].
  destruct (set_points_ok SS f n 1000000 w1 I1) as (w2 & E2 & I2 & _ & F2).
  destruct (@keys_apart f i) as (_ & KS & KP).
  assert (CK : forall k, hd 0 k = 67 -> k <> str "HORIZONTAL:RECORDLENGTH" /\ k <> str "HORIZONTAL:MODE") by (intros k H; split; intros ->; discriminate H).
  assert (CS : hd 0 (scale_key (Analog i)) = 67) by reflexivity. assert (CP : hd 0 (position_key (Analog i)) = 67) by reflexivity.
  assert (ST2 : stands_at reg (w_dev w2) (Analog i) scale position).
  { unfold stands_at in * . rewrite !F2, !R1 by (apply CK; assumption). exact ST. }
  apply inside_fits in FI.
  destruct (two_attempts (uniform := uniform) S FL DI 8 n w2 scale position I2 ST2) as (left & w3 & s2 & p2 & E3 & L & I3 & H3 & FI3 & F3).
  { destruct SB as [S1 S2]. apply Qle_Rle in S1, S2. rewrite Q2R_Z in S2. unfold Q2R in S1 at 1. cbn [Qnum Qden] in S1. lra. }
  { apply Qabs_Qle_condition in PB. destruct PB as [P1 P2]. apply Qle_Rle in P1, P2. apply Rabs_bound.
    assert (H100 : (Q2R 100 = 100)%R) by apply (Q2R_Z 100). rewrite Q2R_opp in P1. lra. }
  { replace (44 / 100)%R with (Q2R (44 # 100)) by (unfold Q2R; cbn [Qnum Qden]; lra).
    replace (1 / 5)%R with (Q2R (1 # 5)) by (unfold Q2R; cbn [Qnum Qden]; lra). exact FI. }
  destruct (set_points_ok SS f n points w3 I3) as (w4 & E4 & I4 & RL4 & F4).
  exists w4, s2, p2. split; [|split; [|split; [|split; [exact RL4|split]]]].
  - unfold autoscale_channel, autoscale. unfold iobind at 1. change (get_time_points dev w) with (get_int dev (str "HORIZONTAL:RECORDLENGTH") w). rewrite E1.
    unfold iobind at 1. rewrite E2. unfold iobind at 1.
    change (attempts _ _ _ _ _ _ _ 10%nat w2) with (the_attempts (dev := dev) (fl := fl) (uniform := uniform) (utf8 := utf8) (f := f) (i := i)
      (cmd := match cmd with Some m => m | None => sleep end) 10 w2).
    rewrite E3. unfold iobind at 1. rewrite E4. destruct left; [lia|reflexivity].
  - unfold has, stands_at in * . rewrite !F4 by (apply CK; assumption). exact H3.
  - apply inside_fits. replace (Q2R (45 # 100)) with (45 / 100)%R by (unfold Q2R; cbn [Qnum Qden]; lra).
    replace (Q2R (74 # 100)) with (74 / 100)%R by (unfold Q2R; cbn [Qnum Qden]; lra). exact FI3.
  - intros stopped runs taken A RN NC.
    assert (CMD : no_restart runs (match cmd with Some m => m | None => sleep end)).
    { destruct cmd as [m|]; [exact (NC m eq_refl)|]. intros v v' EV. destruct (none_sleep (runs := runs) _ _ _ EV). auto. }
    destruct (attempts_counted _ _ _ _ _ _ _ _ _ _ _ _ _ _ _ _ A RN CMD I2 E3) as (v4 & p & s & data & lo & hi & d & _ & _ & LT & CT & _ & _ & R5 & _); [lia|].
    destruct (none_bind _ _ (none_ask A _) (fun x => none_lift _) _ _ _ E1) as [_ R0]. destruct (none_points A f 1000000 _ _ _ E2) as [_ R2].
    destruct (none_points A f points _ _ _ E4) as [_ R6]. lia.
  - intros key N. rewrite F4, F3, F2, R1; [reflexivity|..]; intro X; apply N; subst; cbn [app In]; auto 10.
    cbn [In] in X. unfold touched in X. cbn [app In] in X. intuition auto 10.
Qed.
Print Assumptions C65_converges.
