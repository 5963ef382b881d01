(** C34, sample rates.  A 4000 series scope has no such setting: the time scale
    is derived from the record length it reports. *)
From Coq Require Import String ZArith QArith Qabs Bool List Lia Morphisms.
Import ListNotations.
From Verif Require Import Base PyStr IOModel EquipModel ScopeModel ScopeSpec ScopeProofs ScopeTripProofs ScopeReadProofs ScopeHistProofs.
From Verif Require ScopeProps.
Local Open Scope Z_scope.

(** The screen is ten divisions wide; nothing else changes. *)
Theorem C34_sample_rate_4000 : forall D (dev : device D) reg n fl p v w,
  stores dev (words F4000) reg -> Proper (Qeq ==> Qeq) fl -> w_inst w = Some n -> reg (w_dev w) (str "HORIZONTAL:RECORDLENGTH") = str_int p ->
  ~ (v == 0)%Q ->
  exists w' scale, set_sample_rate_4000 dev v w = (Ok tt, w') /\ (v * scale * 10 == inject_Z p)%Q /\ gives dev fl F4000 (ATimeScale scale) w' /\
    gives dev fl F4000 (ATimePoints p) w' /\
    forall k, k <> str "HORIZONTAL:SCALE" -> reg (w_dev w') k = reg (w_dev w) k.
Proof.
  intros D dev reg n fl p v w ST FL I R NZ. pose (s := Scope [] [] false).
  set (scale := (inject_Z p / v / 10)%Q).
  assert (G : forall k, exists w1, get_time_points dev w = (Ok p, w1) /\ w_inst w1 = Some n /\ reg (w_dev w1) k = reg (w_dev w) k).
  { intro k. destruct (get_int_knows dev (words F4000) reg ST n [(str "HORIZONTAL:RECORDLENGTH", str_int p); (k, reg (w_dev w) k)] (str "HORIZONTAL:RECORDLENGTH") p w)
      as (w1 & E & I1 & K); [|left; reflexivity|chars|reflexivity|apply ScopeProps.int_no_word|].
    - split; [exact I|]. intros k' v' [J|[J|[]]]; injection J as <- <-; [exact R|reflexivity].
    - exists w1. split; [exact E|]. split; [exact I1|]. apply K. right. left. reflexivity. }
  destruct (G []) as (w1 & E1 & I1 & _).
  assert (F1 : forall k, reg (w_dev w1) k = reg (w_dev w) k) by (intro k; destruct (G k) as (w2 & E2 & _ & F2); rewrite E1 in E2; injection E2 as <-; exact F2).
  assert (OK : assignment_ok F4000 s (ATimeScale scale)) by (split; exact Logic.I).
  assert (OK2 : assignment_ok F4000 s (ATimePoints p)) by (split; exact Logic.I).
  destruct (assign_step dev F4000 reg ST n s (ATimeScale scale) w1 OK I1) as (w2 & E2 & I2 & R2 & F2).
  assert (F3 : forall k, k <> str "HORIZONTAL:SCALE" -> reg (w_dev w2) k = reg (w_dev w) k).
  { intros k N. rewrite F2; [apply F1|]. intros v' J. cbn in J. destruct J as [J|[]]. injection J as J _. apply N. symmetry. exact J. }
  exists w2, scale. split; [|split; [|split; [|split; [|exact F3]]]].
  - unfold set_sample_rate_4000, iobind. rewrite E1. destruct (Qeq_bool v 0) eqn:Z0; [apply Qeq_bool_iff in Z0; contradiction|]. exact E2.
  - unfold scale. field. exact NZ.
  - apply (gives_all dev F4000 reg ST n fl FL s _ w2 OK). split; [exact I2|]. intros k v' J. apply R2, depends_writes, J.
  - apply (gives_all dev F4000 reg ST n fl FL s _ w2 OK2). split; [exact I2|]. intros k v2 [J|[]]. pose proof (f_equal fst J) as J1. pose proof (f_equal snd J) as J2. cbn [fst snd] in J1, J2. rewrite <- J1, <- J2. change (reg (w_dev w2) (str "HORIZONTAL:RECORDLENGTH") = str_int p). rewrite F3 by discriminate. exact R.
Qed.
Print Assumptions C34_sample_rate_4000.
(** A rate of zero is an error and nothing is sent. *)
Theorem C34_sample_rate_zero : forall D (dev : device D) v w res w', (v == 0)%Q -> set_sample_rate_4000 dev v w = (res, w') ->
  (exists e, res = Err e) /\ forall r c, In (Wrote r c) (w_log w') -> In (Wrote r c) (w_log w).
Proof.
  intros D dev v w res w' Z0 E. unfold set_sample_rate_4000, iobind, get_time_points, get_int, ask, iobind, get_inst, raise, lift, ret in E.
  apply Qeq_bool_iff in Z0. rewrite Z0 in E.
  destruct (w_inst w) as [i|]; [|injection E as <- <-; split; [eexists; reflexivity|auto]].
  unfold query_resource in E.
  destruct (dev_query dev (w_dev w) (str "HORIZONTAL:RECORDLENGTH" ++ str "?")) as [[a|e] d]; [destruct (to_int (strip a))|]; injection E as <- <-; (split; [eexists; reflexivity|]);
    cbn [w_log]; intros r c J; apply in_app_iff in J; destruct J as [J|[J|[]]]; [exact J|discriminate J|exact J|discriminate J|exact J|discriminate J].
Qed.
Print Assumptions C34_sample_rate_zero.
(** A 4/5/6 series scope stores the rate, in manual mode; time scale and record
    length are left alone. *)
Theorem C34_sample_rate_456 : forall D (dev : device D) reg n fl v w,
  stores dev (words F456) reg -> Proper (Qeq ==> Qeq) fl -> w_inst w = Some n ->
  exists w' rate w'', set_sample_rate_456 dev v w = (Ok tt, w') /\ get_sample_rate dev fl w' = (Ok rate, w'') /\ reads_back fl v rate /\
    reg (w_dev w') (str "HORIZONTAL:MODE") = str "MANUAL" /\
    forall k, ~ In k [str "HORIZONTAL:MODE"; str "HORIZONTAL:MODE:MANUAL:CONFIGURE"; str "HORIZONTAL:SAMPLERATE"] -> reg (w_dev w') k = reg (w_dev w) k.
Proof.
  intros D dev reg n fl v w ST FL I.
  pose (l := [(str "HORIZONTAL:MODE", str "MANUAL"); (str "HORIZONTAL:MODE:MANUAL:CONFIGURE", str "RECORDLENGTH"); (str "HORIZONTAL:SAMPLERATE", sci 6 v)]).
  assert (SO : settings_ok l).
  { unfold l. constructor; [split; [chars|left; chars]|]. constructor; [split; [chars|left; chars]|]. constructor; [|constructor]. split; [chars|left; apply word_sci]. }
  assert (ND : NoDup (map fst l)).
  { unfold l. cbn [map fst]; repeat constructor; cbn [In]; intros J; repeat (destruct J as [J|J]; [discriminate J|]); destruct J. }
  destruct (put_ok dev (words F456) reg ST n l SO ND w I) as (w1 & E & I1 & R & F).
  destruct (get_float_knows dev (words F456) reg ST n (words_no_dot F456) fl FL l (str "HORIZONTAL:SAMPLERATE") v w1) as (y & w2 & E2 & _ & RB); [split; [exact I1|exact R]|right; right; left; reflexivity|chars|reflexivity|].
  exists w1, y, w2. split; [|split; [exact E2|split; [exact RB|split; [apply R; left; reflexivity|exact F]]]].
  rewrite <- E. unfold l, set_sample_rate_456. apply send_put; [reflexivity|]. intro w3. apply send_put; [reflexivity|]. intro w4. apply send_put1. reflexivity.
Qed.
Print Assumptions C34_sample_rate_456.

Example C34_sample_rate_met : exists w, w_inst w = Some 0%nat /\ ScopeProps.look (w_dev w) (str "HORIZONTAL:RECORDLENGTH") = str_int 10000 /\
  exists w', set_sample_rate_4000 ScopeProps.toy (250000000 # 1) w = (Ok tt, w') /\ ScopeProps.look (w_dev w') (str "HORIZONTAL:SCALE") = str "4.000000E-06".
Proof. exists (World [(str "HORIZONTAL:RECORDLENGTH", str "10000")] 1 [] (Some 0%nat)). split; [reflexivity|]. split; [reflexivity|]. eexists. split; [vm_compute; reflexivity|]. vm_compute. reflexivity. Qed.
