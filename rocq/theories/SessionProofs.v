From Coq Require Import String ZArith QArith Bool List Lia.
Import ListNotations.
From Verif Require Import Base Num PyStr IOModel EquipModel EquipSpec EquipProofs ConnectProofs ScopeModel ScopeSpec ScopeUseModel ScopeAutoModel AutoModel SessionModel SessionSpec.
Local Open Scope list_scope.

Lemma orderly_app a l1 b l2 c : orderly a l1 b -> orderly b l2 c -> orderly a (l1 ++ l2) c.
Proof. induction 1; cbn [app]; intro H2; [exact H2|constructor; auto..]. Qed.
Lemma opened_app l1 l2 : opened (l1 ++ l2) = opened l1 ++ opened l2.
Proof. apply flat_map_app. Qed.

Lemma orderly_stays a evs b : orderly a evs b -> opened evs = [] -> b = a \/ b = None.
Proof.
  induction 1 as [c|r evs c H IH|r evs c H IH|c ev evs c' U H IH]; intro N; [left; reflexivity|discriminate N| |].
  - destruct (IH N) as [-> | ->]; right; reflexivity.
  - apply IH. destruct ev; try exact N. destruct U.
Qed.
Section Programs.
Context {D : Type}.
Variable dev : device D.
(** Nothing opened, everything in order. *)
Definition tidy {A} (m : io D A) : Prop := forall w res w', m w = (res, w') ->
  exists evs, w_log w' = w_log w ++ evs /\ orderly (w_inst w) evs (w_inst w') /\ opened evs = [] /\ w_next w' = w_next w.
Lemma tidy_pure {A} (m : io D A) : (forall w, snd (m w) = w) -> tidy m.
Proof.
  intros P w res w' E. specialize (P w). rewrite E in P. cbn [snd] in P. subst w'. exists []. rewrite app_nil_r.
  split; [reflexivity|]. split; [constructor|]. split; reflexivity.
Qed.
Lemma tidy_bind {A B} (m : io D A) (f : A -> io D B) : tidy m -> (forall a, tidy (f a)) -> tidy (iobind m f).
Proof.
  intros M F w res w' E. unfold iobind in E. destruct (m w) as [[a|e] w1] eqn:X.
  - destruct (M _ _ _ X) as (l1 & L1 & O1 & N1 & W1). destruct (F a _ _ _ E) as (l2 & L2 & O2 & N2 & W2).
    exists (l1 ++ l2). rewrite L2, L1, app_assoc. split; [reflexivity|]. split; [exact (orderly_app _ _ _ _ _ O1 O2)|].
    rewrite opened_app, N1, N2. split; [reflexivity|congruence].
  - assert (w1 = w') as <- by congruence. exact (M _ _ _ X).
Qed.
Lemma tidy_program {A} (m : io D A) : program dev m -> tidy m.
Proof.
  induction 1 as [A a|A e|A r|A B m f Pm IHm Pf IHf|A m h Pm IHm Ph IHh|c|c| | |].
  - apply tidy_pure. reflexivity.
  - apply tidy_pure. reflexivity.
  - apply tidy_pure. reflexivity.
  - apply tidy_bind; assumption.
  - intros w res w' E. destruct (m w) as [[a|e] w1] eqn:X.
    + assert (w1 = w') as <- by congruence. exact (IHm _ _ _ X).
    + destruct (IHm _ _ _ X) as (l1 & L1 & O1 & N1 & W1). destruct (IHh e _ _ _ E) as (l2 & L2 & O2 & N2 & W2).
      exists (l1 ++ l2). rewrite L2, L1, app_assoc. split; [reflexivity|]. split; [exact (orderly_app _ _ _ _ _ O1 O2)|].
      rewrite opened_app, N1, N2. split; [reflexivity|congruence].
  - intros w res w' E. unfold send, iobind, get_inst in E. destruct (w_inst w) as [r|] eqn:I.
    + unfold write_resource in E. destruct (dev_write dev (w_dev w) c) as [[[]|e] d]; apply pair_equal_spec in E; destruct E as [_ <-]; cbn [w_log w_inst w_next]; eexists;
        (split; [reflexivity|]); rewrite I; (split; [|split; reflexivity]); (apply o_use; [split; [discriminate|reflexivity]|constructor]).
    + unfold raise in E. assert (w = w') as <- by congruence. exists []. rewrite app_nil_r, I. repeat split. constructor.
  - intros w res w' E. unfold ask, iobind, get_inst in E. destruct (w_inst w) as [r|] eqn:I.
    + unfold query_resource, ret in E. destruct (dev_query dev (w_dev w) c) as [[a|e] d]; apply pair_equal_spec in E; destruct E as [_ <-]; cbn [w_log w_inst w_next]; eexists;
        (split; [reflexivity|]); rewrite I; (split; [|split; reflexivity]); (apply o_use; [split; [discriminate|reflexivity]|constructor]).
    + unfold raise in E. assert (w = w') as <- by congruence. exists []. rewrite app_nil_r, I. repeat split. constructor.
  - intros w res w' E. unfold receive, iobind, get_inst in E. destruct (w_inst w) as [r|] eqn:I.
    + unfold raw_resource in E. destruct (dev_raw dev (w_dev w)) as [[a|e] d]; apply pair_equal_spec in E; destruct E as [_ <-]; cbn [w_log w_inst w_next]; eexists;
        (split; [reflexivity|]); rewrite I; (split; [|split; reflexivity]); (apply o_use; [split; [discriminate|reflexivity]|constructor]).
    + unfold raise in E. assert (w = w') as <- by congruence. exists []. rewrite app_nil_r, I. repeat split. constructor.
  - intros w res w' E. unfold sleep in E. apply pair_equal_spec in E. destruct E as [_ <-]. cbn [w_log w_inst w_next]. exists [Slept]. split; [reflexivity|].
    split; [|split; reflexivity]. apply o_use; [exact I|constructor].
  - intros w res w' E. unfold close, iobind, get_inst in E. destruct (w_inst w) as [r|] eqn:I.
    + unfold close_resource, set_inst in E. destruct (dev_close dev (w_dev w)) as [[[]|e] d]; apply pair_equal_spec in E; destruct E as [_ <-]; cbn [w_log w_inst w_next]; eexists;
        (split; [reflexivity|]); rewrite ?I; (split; [|split; reflexivity]).
      * apply o_close. constructor.
      * apply o_use; [split; [discriminate|reflexivity]|constructor].
    + unfold ret in E. assert (w = w') as <- by congruence. exists []. rewrite app_nil_r, I. repeat split. constructor.
Qed.
Lemma close_closes w : (forall d, fst (dev_close dev d) = Ok tt) -> w_inst (snd (close dev w)) = None /\ fst (close dev w) = Ok tt.
Proof.
  intro R. unfold close, iobind, get_inst. destruct (w_inst w) as [r|] eqn:I; [|split; [exact I|reflexivity]].
  unfold close_resource, set_inst. specialize (R (w_dev w)). destruct (dev_close dev (w_dev w)) as [[[]|e] d]; [split; reflexivity|discriminate R].
Qed.
End Programs.

(** ** The functions of a scope are programs *)
Ltac prog := repeat first
  [ apply p_ret | apply p_raise | apply p_lift | apply p_send | apply p_ask | apply p_receive | apply p_sleep | apply p_close
  | apply p_bind; [|intro]
  | match goal with |- program _ (match ?x with _ => _ end) => destruct x end
  | match goal with |- program _ (if ?x then _ else _) => destruct x end
  | match goal with |- program _ ((let '(_, _) := ?x in _) _) => destruct x end
  | assumption ].
Section Api.
Context {D : Type}.
Variable dev : device D.
Variable fl : Q -> Q.
Lemma prog_wait fuel c states add : forall t s, program dev (wait_loop dev fuel c states add t s).
Proof.
  induction fuel as [|fuel IH]; intros t s; cbn [wait_loop]; destruct (_ && _); prog.
  unfold poll. destruct add; prog. apply IH.
Qed.
Lemma prog_ask_and_wait c states n add : program dev (ask_and_wait dev c states n add).
Proof. unfold ask_and_wait. apply p_bind; [unfold poll; destruct add; prog|intro s]. apply p_bind; [apply prog_wait|intros [t s']]. prog. Qed.
Lemma prog_reset : program dev (reset dev). Proof. unfold reset. prog. Qed.
Lemma prog_set_float k v : program dev (set_float dev k v). Proof. apply p_send. Qed.
Lemma prog_get_float k : program dev (get_float dev fl k). Proof. unfold get_float. prog. Qed.
Lemma prog_get_int k : program dev (get_int dev k). Proof. unfold get_int. prog. Qed.
Lemma prog_trigger f s t : program dev (match f with F4000 => set_trigger_4000 dev s t | F456 => set_trigger_456 dev s t end).
Proof. destruct f, t; unfold set_trigger_4000, set_trigger_456, check_source, set_float, send_word, set_width; prog. Qed.
Lemma prog_assign f s a : program dev (assign dev f s a).
Proof.
  destruct a; cbn [assign]; [| | | | | | | | |apply prog_trigger];
    try (destruct q); try (destruct f);
    unfold set_quantity, set_position, set_scale, set_bandwidth, set_deskew, set_offset, set_termination, set_probe_gain, set_threshold, set_dc_coupling, set_active_4000, set_active_456,
      set_label_4000, set_label_456, set_text, set_inverted, set_switch, set_time_scale_4000, set_time_scale_456, set_time_offset_4000, set_time_offset_456, set_time_points_4000,
      set_time_points_456, set_sample_mode, manual, set_int, set_float; prog.
Qed.
Lemma prog_get_trigger f : program dev (match f with F4000 => get_trigger_4000 dev fl | F456 => get_trigger_456 dev fl end).
Proof.
  destruct f; unfold get_trigger_4000, get_trigger_456, get_edge_4000, get_edge_456, get_timeout, get_pulse_width, level_4000, level_456, get_float; cbv zeta; prog.
Qed.
Lemma prog_get_quantity a q : program dev (get_quantity dev fl a q).
Proof. destruct q; cbn [get_quantity]; try apply prog_get_float. unfold get_threshold. prog. Qed.
Lemma prog_init f digit : program dev (init_channels dev fl digit f).
Proof. destruct f; cbn [init_channels]; unfold init_4000, init_456, get_int, get_float; cbv zeta; prog. Qed.
Lemma polite_init f digit r : polite r (init_channels dev fl digit f).
Proof.
  assert (polite_lift : forall A (x : result A), polite r (@lift D A x)) by (intros A [x|e]; [apply (polite_ret r x)|apply (@polite_raise D A r e)]).
  destruct f; cbn [init_channels]; unfold init_4000, init_456, get_int, get_float; cbv zeta;
    repeat first [ apply polite_ret | apply polite_raise | apply polite_lift | apply polite_send | apply polite_ask | apply polite_bind; [|intro]
    | match goal with |- polite _ (match ?x with _ => _ end) => destruct x end | match goal with |- polite _ (if ?x then _ else _) => destruct x end ].
Qed.
Lemma prog_stop n : program dev (stop dev n).
Proof. unfold stop, wait_for. apply p_bind; [prog|intro]. apply p_bind; [apply prog_ask_and_wait|intro; prog]. Qed.
Lemma prog_run b n : program dev (run dev b n).
Proof. unfold run, wait_for. do 4 (apply p_bind; [prog|intro]). apply p_bind; [apply prog_ask_and_wait|intro; prog]. Qed.
Lemma prog_wait_for c states n add : program dev (wait_for dev c states n add).
Proof. unfold wait_for. apply p_bind; [apply prog_ask_and_wait|intro; prog]. Qed.
Lemma prog_single cmd b n : program dev cmd -> program dev (single dev cmd b n).
Proof. intro C. unfold single. repeat first [exact C | apply p_send | apply prog_wait_for | apply p_bind; [|intro]]. Qed.
Lemma prog_fetch f name : program dev (fetch dev f name).
Proof. destruct f; unfold fetch, fetch_4000, fetch_456, set_active_4000, set_active_456, set_switch; prog. Qed.
Lemma prog_read {A} `{Num A} (tf : pystr -> result A) uniform utf8 f name raw noise : program dev (read_waveform dev tf uniform utf8 f name raw noise).
Proof. unfold read_waveform. apply p_bind; [apply prog_fetch|intro; prog]. Qed.
Lemma prog_autoscale uniform utf8 f name cmd : (forall m, cmd = Some m -> program dev m) -> program dev (autoscale_channel dev fl uniform utf8 f name cmd).
Proof.
  intro C. assert (PC : program dev (match cmd with Some m => m | None => sleep end)) by (destruct cmd; [apply C; reflexivity|prog]).
  assert (PT : forall n, program dev (set_time_points dev f n)) by (intro n; destruct f; unfold set_time_points, set_time_points_4000, set_time_points_456, manual, set_int; prog).
  assert (PA : forall k, program dev (attempts (n_div_vert f) (get_position dev fl name) (get_scale dev fl name) (set_position dev name) (set_scale dev name)
    (single dev (match cmd with Some m => m | None => sleep end) true 20) (read_vertical dev fl uniform utf8 f name) k)).
  { induction k as [|k IH]; cbn [attempts]; [prog|]. apply p_bind; [apply prog_get_float|intro]. apply p_bind; [apply prog_get_float|intro].
    apply p_bind; [apply prog_single, PC|intro]. apply p_bind; [unfold read_vertical; apply p_bind; [apply prog_read|intro; prog]|intros [[data lo] hi]].
    apply p_bind; [prog|intro]. apply p_bind; [prog|intros [[s p]|]]; [|prog]. apply p_bind; [apply prog_set_float|intro]. apply p_bind; [apply prog_set_float|intro]. exact IH. }
  unfold autoscale_channel, autoscale. apply p_bind; [apply prog_get_int|intro]. apply p_bind; [apply PT|intro]. apply p_bind; [apply PA|intros left].
  apply p_bind; [apply PT|intro]. destruct left; prog.
Qed.
End Api.
