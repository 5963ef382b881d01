(** C66: sessions with a scope. *)
From Coq Require Import String ZArith QArith Bool List Lia.
Import ListNotations.
From Verif Require ScopeOpenProps.
From Verif Require Import Base Num PyStr IOModel EquipModel EquipSpec EquipProofs ConnectProofs EquipProps ScopeModel ScopeSpec ScopeUseModel ScopeAutoModel SessionModel SessionSpec SessionProofs.
Local Open Scope list_scope.

(** ** What a user of the object can do *)
(** Every function of a scope is such a program. *)
Theorem C66_functions : forall D (dev : device D) fl uniform utf8 f s name,
  (forall a, program dev (assign dev f s a)) /\
  (forall q, program dev (get_quantity dev fl name q)) /\
  program dev (match f with F4000 => get_trigger_4000 dev fl | F456 => get_trigger_456 dev fl end) /\
  (forall n, program dev (stop dev n)) /\ (forall normal n, program dev (run dev normal n)) /\ program dev (force dev) /\
  (forall cmd b n, program dev cmd -> program dev (single dev cmd b n)) /\
  (forall raw noise, program dev (read_waveform dev (to_float fl) uniform utf8 f name raw noise)) /\
  (forall cmd, (forall m, cmd = Some m -> program dev m) -> program dev (autoscale_channel dev fl uniform utf8 f name cmd)) /\
  program dev (reset dev) /\ (forall c states n add, program dev (ask_and_wait dev c states n add)).
Proof.
  intros. split; [intro; apply prog_assign|]. split; [intro; apply prog_get_quantity|]. split; [apply prog_get_trigger|]. split; [intro; apply prog_stop|].
  split; [intros; apply prog_run|]. split; [apply p_send|]. split; [intros; apply prog_single; assumption|]. split; [intros; apply prog_read|].
  split; [intros; apply prog_autoscale; assumption|]. split; [apply prog_reset|]. intros; apply prog_ask_and_wait.
Qed.
Print Assumptions C66_functions.

(** ** Connecting *)
(** A returned scope: the instrument was asked who it is over a resource of its
    own that is closed before the scope opens the next one; the scope is of the
    family whose pattern matches the answer. *)
Theorem C66_connected : forall D (dev : device D) fl digit address w f s w', connect_scope dev fl digit address w = (Ok (f, s), w') ->
  let n := w_next w in
  exists reply d w0, w_log w0 = w_log w ++ [Opened n; Wrote n (str "*IDN?"); Queried n (str "*IDN?") reply; Closed n] /\ w_next w0 = S n /\
    first_match (builtin_match digit) builtin_registry (strip reply) d /\ f = family_of d /\
    new_scope dev fl digit f address w0 = (Ok s, w').
Proof.
  intros D dev fl digit address w f s w' E n. unfold connect_scope in E. unfold iobind at 1 in E. destruct (probe dev address w) as [rp w1] eqn:P.
  destruct (probe_spec dev address w rp w1 P) as [(e & -> & _)|(mid & last & L & _ & NX & LA & M)]; [discriminate E|].
  destruct rp as [identity|e]; [|discriminate E].
  destruct LA as [-> |(e & _ & X)]; [|discriminate X].
  destruct M as [(reply & -> & R)|[(e & _ & R)|(_ & R)]]; specialize (R eq_refl); try discriminate R. assert (identity = strip reply) as -> by congruence.
  unfold iobind at 1, lift in E. destruct (dispatch builtin (builtin_match digit) builtin_registry (strip reply)) as [d|e] eqn:DI; [|discriminate E].
  unfold iobind, building, ret in E. destruct (new_scope dev fl digit (family_of d) address w1) as [[s'|e] w2] eqn:NS; [|discriminate E].
  assert (f = family_of d /\ s = s' /\ w' = w2) as (-> & -> & ->) by (repeat split; congruence).
  exists reply, d, w1. split; [exact L|]. split; [exact NX|]. split; [|split; [reflexivity|exact NS]].
  exact (proj1 (dispatch_first _ _ _ _ _) DI).
Qed.
Print Assumptions C66_connected.

(** ** The whole session *)
(** Whatever the instrument answers, whatever fails and whatever the body does
    with the object: at most one resource is open at any time, only the open
    one is used, and none is left open.  The body runs at most once, with a
    connected scope, and its result or exception is the one of the session. *)
Theorem C66_session : forall D (dev : device D) fl digit A address (body : family -> scope -> io D A) w res w',
  sound_resources dev -> (forall f s, program dev (body f s)) -> with_scope dev fl digit address body w = (res, w') ->
  let n := w_next w in
  exists evs, w_log w' = w_log w ++ evs /\ orderly None evs None /\ (opened evs = [] \/ opened evs = [n] \/ opened evs = [n; S n]) /\
  ((exists e w1, connect_scope dev fl digit address w = (Err e, w1) /\ res = Err e /\ w_log w' = w_log w1) \/
   (exists f s w1 w2 evs2, connect_scope dev fl digit address w = (Ok (f, s), w1) /\ w_inst w1 = Some (S n) /\ body f s w1 = (res, w2) /\
      w_log w' = w_log w2 ++ evs2 /\ (evs2 = [] \/ evs2 = [Closed (S n)]))).
Proof.
  intros D dev fl digit A address body w res w' [SO SC] PB E n.
  unfold with_scope in E. unfold iobind at 1 in E.
  (* the probe *)
  assert (PR : forall rp w1, probe dev address w = (rp, w1) -> exists evs, w_log w1 = w_log w ++ evs /\ orderly None evs None /\
    (opened evs = [] \/ (opened evs = [n] /\ w_next w1 = S n)) /\ w_inst w1 = w_inst w /\ (forall i, rp = Ok i -> opened evs = [n])).
  { intros rp w1 P. destruct (probe_spec dev address w rp w1 P) as [(e & -> & L & I & NX)|(mid & last & L & I & NX & LA & M)].
    - exists []. rewrite app_nil_r. split; [exact L|]. split; [constructor|]. split; [left; reflexivity|]. split; [exact I|discriminate].
    - exists ([Opened n] ++ mid ++ [last]). split; [exact L|].
      assert (LC : last = Closed n).
      { destruct LA as [LA|(e & -> & ->)]; [exact LA|]. exfalso. unfold probe, iobind, open_resource, finally in P.
        destruct (dev_open dev (w_dev w) address) as [[mb|e'] d]; [|apply pair_equal_spec in P; destruct P as [_ <-]; cbn [w_next] in NX; lia].
        cbn [fst snd] in P. match type of P with (let '(_, _) := ?t in _) = _ => destruct t as [r0 w2] end. unfold close_resource in P. specialize (SC (w_dev w2)).
        destruct (dev_close dev (w_dev w2)) as [[[]|e2] d2]; [|discriminate SC].
        apply pair_equal_spec in P. destruct P as [_ <-]. cbn [w_log] in L. rewrite !app_assoc in L. apply app_inj_tail in L. destruct L as [_ L]. discriminate L. }
      subst last.
      assert (MI : orderly (Some n) (mid ++ [Closed n]) None /\ opened mid = []).
      { destruct M as [(reply & -> & _)|[(e & [-> | ->] & _)|(-> & _)]]; (split; [|reflexivity]); cbn [app];
          repeat first [apply o_close; constructor | apply o_use; [split; [discriminate|reflexivity]|]]. }
      destruct MI as [MO MN]. split; [cbn [app]; apply o_open; exact MO|].
      assert (ON : opened ([Opened n] ++ mid ++ [Closed n]) = [n]) by (rewrite !opened_app, MN; reflexivity).
      split; [right; split; [exact ON|exact NX]|]. split; [exact I|]. intros. exact ON. }
  destruct (connect_scope dev fl digit address w) as [rc wc] eqn:EC. pose proof EC as EC'. unfold connect_scope in EC. unfold iobind at 1 in EC.
  destruct (probe dev address w) as [[identity|e] w1] eqn:EP; destruct (PR _ _ eq_refl) as (ev1 & L1 & O1 & N1 & I1 & OK1).
  2:{ assert (rc = Err e /\ wc = w1) as [-> ->] by (split; congruence). assert (res = Err e /\ w' = w1) as [-> ->] by (split; congruence).
      exists ev1. split; [exact L1|]. split; [exact O1|]. split; [destruct N1 as [N1|[N1 _]]; auto|]. left. exists e, w1. auto. }
  specialize (OK1 _ eq_refl). destruct N1 as [N1|[_ NX1]]; [congruence|].
  unfold iobind at 1, lift in EC. destruct (dispatch builtin (builtin_match digit) builtin_registry identity) as [d|e].
  2:{ assert (rc = Err e /\ wc = w1) as [-> ->] by (split; congruence). assert (res = Err e /\ w' = w1) as [-> ->] by (split; congruence).
      exists ev1. split; [exact L1|]. split; [exact O1|]. split; [auto|]. left. exists e, w1. auto. }
  (* the constructor *)
  unfold iobind in EC. unfold building, new_scope, construct in EC. unfold iobind at 1 in EC. unfold iobind at 1 in EC. unfold set_inst at 1 in EC.
  unfold iobind at 1 in EC. unfold open_resource in EC. cbn [w_dev w_next w_log w_inst] in EC.
  specialize (SO (w_dev w1) address). destruct (dev_open dev (w_dev w1) address) as [[[]|e] d2]; [|contradiction SO; reflexivity|].
  2:{ unfold release, del, close, iobind, get_inst, ret in EC. cbn [w_inst snd] in EC.
      assert (rc = Err e) as -> by congruence. assert (res = Err e /\ w' = wc) as [-> ->] by (split; congruence).
      assert (LW : w_log wc = w_log w1) by (apply pair_equal_spec in EC; destruct EC as [_ <-]; reflexivity).
      exists ev1. split; [congruence|]. split; [exact O1|]. split; [auto|]. left. exists e, wc. auto. }
  cbn [fst snd w_dev w_next w_log w_inst] in EC. unfold set_inst in EC. cbn [w_dev w_next w_log w_inst] in EC.
  set (w2 := World d2 (S (w_next w1)) (w_log w1 ++ [Opened (w_next w1)]) (Some (w_next w1))) in EC.
  assert (I2 : w_inst w2 = Some (S n)) by (unfold w2; cbn [w_inst]; congruence).
  assert (L2 : w_log w2 = w_log w ++ ev1 ++ [Opened (S n)]) by (unfold w2; cbn [w_log]; rewrite NX1, L1, app_assoc; reflexivity).
  clearbody w2. destruct (init_channels dev fl digit (family_of d) w2) as [ri w3] eqn:EI.
  destruct (tidy_program dev _ (prog_init dev fl (family_of d) digit) _ _ _ EI) as (ev3 & L3 & O3 & N3 & _).
  assert (CL : forall v, exists evs, w_log (snd (close dev v)) = w_log v ++ evs /\ orderly (w_inst v) evs None /\ opened evs = [] /\
    (w_inst v = Some (S n) \/ w_inst v = None -> evs = [] \/ evs = [Closed (S n)]) /\ w_inst (snd (close dev v)) = None /\ fst (close dev v) = Ok tt).
  { intro v. destruct (close dev v) as [rv v'] eqn:EV. destruct (tidy_program dev _ (p_close dev) _ _ _ EV) as (evs & LV & OV & NV & _).
    destruct (close_closes dev v SC) as [IV RV]. rewrite EV in IV, RV. cbn [fst snd] in * . rewrite IV in OV. exists evs.
    split; [exact LV|]. split; [exact OV|]. split; [exact NV|]. split; [|split; assumption].
    intros [IC|IC]; unfold close, iobind, get_inst in EV; rewrite IC in EV.
    - unfold close_resource, set_inst in EV. pose proof (SC (w_dev v)) as SV. destruct (dev_close dev (w_dev v)) as [[[]|e] dd]; [|discriminate SV].
      apply pair_equal_spec in EV. destruct EV as [_ <-]. cbn [w_log] in LV. apply app_inv_head in LV. right. symmetry. exact LV.
    - unfold ret in EV. apply pair_equal_spec in EV. destruct EV as [_ <-]. left. apply (app_inv_head (w_log v)). rewrite app_nil_r. symmetry. exact LV. }
  destruct ri as [s|e].
  2:{ unfold release, del in EC. cbn [snd] in EC. assert (rc = Err e /\ wc = snd (close dev w3)) as [-> ->] by (split; congruence).
      assert (res = Err e /\ w' = snd (close dev w3)) as [-> ->] by (split; congruence).
      destruct (CL w3) as (ev4 & L4 & O4 & N4 & _).
      exists (ev1 ++ [Opened (S n)] ++ ev3 ++ ev4). split; [rewrite L4, L3, L2; rewrite <- !app_assoc; reflexivity|].
      split; [apply (orderly_app _ _ _ _ _ O1); cbn [app]; apply o_open; rewrite I2 in O3; exact (orderly_app _ _ _ _ _ O3 O4)|].
      split; [right; right; rewrite !opened_app, OK1, N3, N4; reflexivity|]. left. exists e, (snd (close dev w3)). auto. }
  unfold ret in EC. assert (rc = Ok (family_of d, s) /\ wc = w3) as [-> ->] by (split; congruence). cbn [fst snd] in E. unfold finally in E.
  destruct (body (family_of d) s w3) as [rb w4] eqn:EB. destruct (tidy_program dev _ (PB _ _) _ _ _ EB) as (ev4 & L4 & O4 & N4 & _).
  destruct (CL w4) as (ev5 & L5 & O5 & N5 & SH5 & I5 & R5). change (exit dev w4) with (close dev w4) in E.
  destruct (close dev w4) as [r5 w5]. cbn [fst snd] in * . subst r5. cbv beta iota in E. unfold release, del in E. destruct (CL w5) as (ev6 & L6 & O6 & N6 & SH6 & _ & _).
  destruct (SH6 (or_intror I5)) as [-> | ->]; [|rewrite I5 in O6; inversion O6; match goal with H : in_use _ _ |- _ => destruct H end].
  assert (res = rb /\ w' = snd (close dev w5)) as [-> ->] by (split; congruence). rewrite app_nil_r in L6.
  assert (I3 : w_inst w3 = Some (S n)).
  { destruct (polite_init dev fl (family_of d) digit (S n) _ _ _ I2 EI) as [SM _]. destruct SM. congruence. }
  exists (ev1 ++ [Opened (S n)] ++ ev3 ++ ev4 ++ ev5). split; [rewrite L6, L5, L4, L3, L2; rewrite <- !app_assoc; reflexivity|].
  split; [apply (orderly_app _ _ _ _ _ O1); cbn [app]; apply o_open; rewrite I2 in O3; exact (orderly_app _ _ _ _ _ O3 (orderly_app _ _ _ _ _ O4 O5))|].
  split; [right; right; rewrite !opened_app, OK1, N3, N4, N5; reflexivity|].
  right. exists (family_of d), s, w3, w4, ev5. split; [reflexivity|]. split; [exact I3|]. split; [exact EB|]. split; [rewrite L6; exact L5|].
  apply SH5. rewrite <- I3. exact (orderly_stays _ _ _ O4 N4).
Qed.
Print Assumptions C66_session.

(** A session that sends a command and then fails, with a scope of two channels. *)
Definition mso : device unit := ScopeOpenProps.instrument (str "TEKTRONIX,MSO44,1,2").
Lemma mso_sound : sound_resources mso. Proof. split; intros; [discriminate|reflexivity]. Qed.
Example C66_met :
  let body (f : family) (s : scope) := iobind (send mso (str "ACQUIRE:STATE STOP")) (fun _ => @raise unit unit ValueError) in
  (forall f s, program mso (body f s)) /\
  exists w', with_scope mso (fun q => q) is_digit (str "USB0") body ScopeOpenProps.nothing = (Err ValueError, w') /\
    opened (w_log w') = [5%nat; 6%nat] /\ last (w_log w') Slept = Closed 6.
Proof.
  cbv zeta. split; [intros; apply p_bind; [apply p_send|intro; apply p_raise]|].
  eexists. split; [vm_compute; reflexivity|]. split; vm_compute; reflexivity.
Qed.
