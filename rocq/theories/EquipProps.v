(** C18, C23, C24: driver dispatch, polling, life cycle of an instrument. *)
From Coq Require Import String ZArith Bool List Lia.
Import ListNotations.
From Verif Require Import Base PyStr ScpiModel ScpiProofs IOModel EquipModel EquipSpec EquipProofs ConnectProofs.
Local Open Scope Z_scope.

(** ** C23 *)
(** Every call of ask_and_wait on an open instrument that can do n further
    polls (n = int(timeout / 0.05)), whatever the instrument replies: *)
Theorem C23_ask_and_wait :
  forall D (dev : device D) command states n additional w r res w',
  w_inst w = Some r -> ask_and_wait dev command states n additional w = (res, w') ->
  (* it returns the first wanted reply, got in at most n + 1 polls *)
  (exists before reply, res = Ok (strip reply) /\
     w_log w' = w_log w ++ exchange r command additional (before ++ [reply]) /\
     Forall (fun a => ~ wanted states a) before /\ wanted states reply /\ Z.of_nat (length before) <= n) \/
  (* or times out after n + 2 polls (1 if n is negative) *)
  (exists before reply, res = Err TimeoutError /\
     w_log w' = w_log w ++ exchange r command additional (before ++ [reply]) /\
     Forall (fun a => ~ wanted states a) before /\ Z.of_nat (length before) = Z.max 0 (n + 1)) \/
  (* or an operation on the instrument failed *)
  (exists e evs ev, res = Err e /\ w_log w' = w_log w ++ evs ++ [ev] /\ failure ev e).
Proof.
  intros D dev command states n additional w r res w' I E.
  destruct (ask_and_wait_spec dev command states n additional w r res w' I E) as [_ [H|[H|(e & R & evs & ev & L & F)]]].
  - left. exact H.
  - right. left. exact H.
  - right. right. exists e, evs, ev. refine (conj R (conj L F)).
Qed.
Print Assumptions C23_ask_and_wait.
(** An instrument whose i-th reply is [script i] and that accepts every command. *)
Definition scripted (script : nat -> pystr) : device nat :=
  Device (fun d _ => (Ok true, d)) (fun d => (Ok tt, d)) (fun d _ => (Ok tt, d)) (fun d _ => (Ok (script d), S d)) (fun d => (Ok [], d)).
Definition started : world nat := World 0%nat 1%nat [Opened 0] (Some 0%nat).
Example C23_met : ask_and_wait (scripted (fun i => if Nat.ltb i 2 then str "BUSY" else str " READY ")) (str "STATE?") [str "READY"] 3 (Some (str "*WAI")) started
  = (Ok (str "READY"), World 3%nat 1%nat
      ([Opened 0] ++ [Wrote 0 (str "*WAI"); Queried 0 (str "STATE?") (str "BUSY"); Slept; Wrote 0 (str "*WAI"); Queried 0 (str "STATE?") (str "BUSY"); Slept;
                      Wrote 0 (str "*WAI"); Queried 0 (str "STATE?") (str " READY ")]) (Some 0%nat)).
Proof. reflexivity. Qed.
(** The wanted state arriving on the last permitted poll still times out. *)
Theorem C23_last_poll_wasted : forall command state n, (0 <= n) -> strip state = state -> strip (str "BUSY") <> state ->
  let script i := if Nat.ltb i (Z.to_nat n + 1) then str "BUSY" else state in
  fst (ask_and_wait (scripted script) command [state] n None started) = Err TimeoutError /\
  In (Queried 0 command state) (w_log (snd (ask_and_wait (scripted script) command [state] n None started))).
Proof.
  intros command state n N ST NE script.
  destruct (ask_and_wait (scripted script) command [state] n None started) as [res w'] eqn:E. cbn [fst snd].
  assert (Q : forall l (w0 : world nat) res0 w1 n0 f s0, w_inst w0 = Some 0%nat -> w_log w0 = [Opened 0] ++ l ->
    l = exchange 0 command None (map script (seq 0 (w_dev w0))) -> (1 <= w_dev w0)%nat -> s0 = strip (script (w_dev w0 - 1)%nat) ->
    wait_loop (scripted script) f command [state] None n0 s0 w0 = (res0, w1) ->
    w_log w1 = [Opened 0] ++ exchange 0 command None (map script (seq 0 (w_dev w1)))).
  { intros l w0 res0 w1 n0 f. revert l w0 n0. induction f as [|f IH]; intros l w0 n0 s0 I0 L0 EL W0 S0 H; cbn [wait_loop] in H;
      destruct (negb (mem s0 [state]) && (0 <=? n0)); try (injection H as <- <-; rewrite L0, EL; reflexivity).
    unfold iobind at 1 in H. cbn [sleep] in H. unfold iobind in H at 1. unfold poll, ask, iobind, get_inst, query_resource, ret in H.
    cbn [w_inst] in H. rewrite I0 in H. cbn [scripted dev_query w_dev w_next w_log w_inst] in H.
    refine (IH (l ++ [Slept; Queried 0 command (script (w_dev w0))]) _ _ _ _ _ _ _ _ H); cbn [w_inst w_log w_dev].
    - reflexivity.
    - rewrite L0, <- !app_assoc. reflexivity.
    - rewrite EL, seq_S, map_app. cbn [map Nat.add]. destruct (w_dev w0) as [|k]; [lia|]. cbn [seq map].
      set (rest := map script (seq 1 k)). rewrite <- app_comm_cons. rewrite !exchange_polls. unfold polls. rewrite flat_map_app. cbn [flat_map app one_poll].
      cbn [app]. rewrite ?app_assoc, <- ?app_assoc. reflexivity.
    - lia.
    - f_equal. f_equal. lia. }
  pose proof (ask_and_wait_spec (scripted script) command [state] n None started 0%nat res w' eq_refl E) as [_ S].
  unfold ask_and_wait, iobind in E. unfold poll at 1, ask, iobind, get_inst, query_resource, ret in E.
  cbn [started w_inst scripted dev_query w_dev w_next w_log] in E.
  destruct (wait_loop _ _ _ _ _ _ _ _) as [rl wl] eqn:W.
  assert (LG : w_log wl = [Opened 0] ++ exchange 0 command None (map script (seq 0 (w_dev wl)))).
  { refine (Q [Queried 0 command (script 0%nat)] _ _ _ _ _ _ _ _ _ _ _ W); try reflexivity. }
  assert (WE : w' = wl) by (destruct rl as [[t s]|e]; [destruct (t <? 0)|]; injection E as _ <-; reflexivity). subst wl. clear E W Q.
  assert (BUSY : forall i, (i <= Z.to_nat n)%nat -> ~ wanted [state] (script i)).
  { intros i L [X|[]]. unfold script in X. assert (T : Nat.ltb i (Z.to_nat n + 1) = true) by (apply Nat.ltb_lt; lia). rewrite T in X. apply NE. symmetry. exact X. }
  assert (INJ : forall l l', exchange 0 command None l = exchange 0 command None l' -> l = l').
  { intros l. destruct l as [|a l]; intros [|a' l'] H; [reflexivity|exfalso; rewrite exchange_polls in H; discriminate..|].
    rewrite !exchange_polls in H. cbn [one_poll app] in H. injection H as -> H. f_equal. clear -H. revert l' H. induction l as [|b l IH]; intros [|b' l'] H; try reflexivity; try discriminate.
    cbn [polls flat_map one_poll app] in H. injection H as -> H. f_equal. apply IH, H. }
  destruct S as [(b & a & _ & L & U & WA & LB)|[(b & a & -> & L & U & LB)|(e & _ & evs & ev & L & F)]].
  - exfalso. rewrite LG in L. change (w_log started) with [Opened 0] in L. apply app_inv_head in L. apply INJ in L.
    assert (K := f_equal (@length _) L). rewrite app_length, map_length, seq_length in K. cbn [length] in K.
    assert (A : a = script (length b)).
    { assert (X := f_equal (fun l => nth (length b) l []) L). cbn beta in X. rewrite app_nth2, Nat.sub_diag in X by lia. cbn [nth] in X.
      rewrite (nth_indep _ [] (script 0%nat)), map_nth, seq_nth in X by (rewrite ?map_length, ?seq_length; lia). symmetry. exact X. }
    subst a. exact (BUSY (length b) ltac:(lia) WA).
  - split; [reflexivity|]. rewrite L. apply in_or_app. right. rewrite LG in L. change (w_log started) with [Opened 0] in L. apply app_inv_head in L. apply INJ in L.
    assert (K := f_equal (@length _) L). rewrite app_length, map_length, seq_length in K. cbn [length] in K.
    assert (A : a = script (length b)).
    { assert (X := f_equal (fun l => nth (length b) l []) L). cbn beta in X. rewrite app_nth2, Nat.sub_diag in X by lia. cbn [nth] in X.
      rewrite (nth_indep _ [] (script 0%nat)), map_nth, seq_nth in X by (rewrite ?map_length, ?seq_length; lia). symmetry. exact X. }
    unfold script in A. assert (T : Nat.ltb (length b) (Z.to_nat n + 1) = false) by (apply Nat.ltb_ge; lia). rewrite T in A. subst a.
    destruct b as [|b0 b]; [cbn in LB; lia|]. rewrite <- app_comm_cons, exchange_polls. unfold polls. rewrite flat_map_app.
    apply in_or_app. right. apply in_or_app. right. right. left. reflexivity.
  - exfalso. rewrite LG in L. change (w_log started) with [Opened 0] in L. apply app_inv_head in L.
    assert (I : In ev (exchange 0 command None (map script (seq 0 (w_dev w'))))) by (rewrite L; apply in_or_app; right; left; reflexivity).
    destruct F as (r & c & [-> | ->]); destruct (map script (seq 0 (w_dev w'))) as [|x l]; try destruct I;
      rewrite exchange_polls in I; apply in_app_or in I; destruct I as [[I|[]]|I]; try discriminate; unfold polls in I; apply in_flat_map in I; destruct I as (y & _ & [I|[I|[]]]); discriminate.
Qed.
Print Assumptions C23_last_poll_wasted.
Example C23_last_poll_met : 0 <= 1 /\ strip (str "READY") = str "READY" /\ strip (str "BUSY") <> str "READY". Proof. repeat split; try discriminate. Qed.

(** ** C24 *)
(** A constructed instrument and any program using it: its resource is closed
    at most once, nothing reaches it afterwards, and no other resource is
    touched.  [sched] has every call in any order, exceptions caught. *)
Theorem C24_closed_once : forall D (dev : device D) address w w1 ops,
  construct dev address w = (Ok tt, w1) -> quiet_after_close (w_log w) (w_next w) -> closes (w_log w) (w_next w) = 0%nat ->
  let r := w_next w in
  let log := w_log (run_ops dev ops w1) in
  (exists evs, log = w_log w ++ [Opened r] ++ evs /\ Forall (fun ev => resource_of ev = None \/ resource_of ev = Some r) evs) /\
  (closes log r <= 1)%nat /\ quiet_after_close log r /\
  (w_inst (run_ops dev ops w1) = None <-> closes log r = 1%nat).
Proof.
  intros D dev address w w1 ops C Q0 N0 r log. fold r in Q0, N0.
  assert (W1 : w_inst w1 = Some r /\ w_log w1 = w_log w ++ [Opened r]).
  { unfold construct, iobind, set_inst, open_resource, raise in C. cbn [w_dev w_next w_log] in C.
    destruct (dev_open dev (w_dev w) address) as [[[]|e] d]; cbn [snd fst] in C; try discriminate. injection C as <-. split; reflexivity. }
  destruct W1 as [I1 L1].
  assert (LF : life r (w_log w1) w1). { exists []. split; [constructor|]. left. split; [exact I1|rewrite app_nil_r; reflexivity]. }
  destruct (life_run dev r (w_log w1) ops w1 LF) as (evs & K & H). fold log in H.
  assert (C0 : closes (w_log w1) r = 0%nat). { rewrite L1, closes_app, N0. reflexivity. }
  assert (NC : forall l, closes l r = 0%nat -> ~ In (Closed r) l).
  { intros l Z J. apply in_split in J. destruct J as (a & b & ->). rewrite closes_app in Z. unfold closes in Z. cbn in Z. rewrite Nat.eqb_refl in Z. cbn in Z. lia. }
  destruct H as [[I L]|[I L]]; rewrite L.
  - refine (conj _ (conj _ (conj _ _))).
    + exists evs. rewrite L1, <- app_assoc. split; [reflexivity|]. eapply Forall_impl; [|exact K]. intros ev [_ X]. exact X.
    + rewrite closes_app, C0, closes_calm by exact K. lia.
    + intros l1 l2 ev E J. exfalso. apply (NC (w_log w1 ++ evs)); [rewrite closes_app, C0, closes_calm by exact K; reflexivity|].
      rewrite E. apply in_or_app. right. left. reflexivity.
    + rewrite closes_app, C0, closes_calm, I by exact K. split; intro X; discriminate X.
  - assert (CL : closes (w_log w1 ++ evs ++ [Closed r]) r = 1%nat).
    { rewrite !closes_app, C0, closes_calm by exact K. unfold closes. cbn. rewrite Nat.eqb_refl. reflexivity. }
    refine (conj _ (conj _ (conj _ _))).
    + exists (evs ++ [Closed r]). rewrite L1, <- app_assoc. split; [reflexivity|]. apply Forall_app. split; [eapply Forall_impl; [|exact K]; intros ev [_ X]; exact X|].
      constructor; [right; reflexivity|constructor].
    + rewrite CL. lia.
    + intros l1 l2 ev E J. exfalso. rewrite app_assoc in E. destruct l2 as [|x l2] using rev_ind; [destruct J|].
      rewrite app_comm_cons, app_assoc in E. apply app_inj_tail in E. destruct E as [E _].
      apply (NC (w_log w1 ++ evs)); [rewrite closes_app, C0, closes_calm by exact K; reflexivity|]. rewrite E. apply in_or_app. right. left. reflexivity.
    + rewrite CL, I. split; reflexivity.
Qed.
Print Assumptions C24_closed_once.
(** If closing the resource itself never fails, one close, context exit or
    destructor suffices; before that the instrument stays open. *)
Theorem C24_closes : forall D (dev : device D) address w w1 ops, (forall d, fst (dev_close dev d) = Ok tt) ->
  construct dev address w = (Ok tt, w1) -> quiet_after_close (w_log w) (w_next w) -> closes (w_log w) (w_next w) = 0%nat ->
  closes (w_log (run_ops dev ops w1)) (w_next w) = (if existsb closing ops then 1 else 0)%nat.
Proof.
  intros D dev address w w1 ops R C Q0 N0.
  destruct (C24_closed_once D dev address w w1 ops C Q0 N0) as (_ & LE & _ & X).
  assert (I1 : w_inst w1 = Some (w_next w)).
  { unfold construct, iobind, set_inst, open_resource, raise in C. cbn [w_dev w_next w_log] in C.
    destruct (dev_open dev (w_dev w) address) as [[[]|e] d]; cbn [snd fst] in C; try discriminate. injection C as <-. reflexivity. }
  destruct (existsb closing ops) eqn:E.
  - apply X. apply (closed_run dev (w_next w)); [exact R|left; exact I1|left; exact E].
  - assert (NN : w_inst (run_ops dev ops w1) <> None).
    { clear -I1 E. revert w1 I1 E. induction ops as [|o ops IH]; intros w1 I1 E; cbn in *; [congruence|].
      apply orb_false_elim in E. destruct E as [E1 E2]. apply IH; [|exact E2]. destruct (do_op dev o w1) as [res w2] eqn:F. cbn [snd].
      destruct (op_open dev _ _ _ _ _ E1 I1 F) as [[S _] _]. congruence. }
    destruct (closes (w_log (run_ops dev ops w1)) (w_next w)) as [|[|k]] eqn:K; [reflexivity| |lia]. destruct NN. apply X. reflexivity.
Qed.
Print Assumptions C24_closes.
(** Once closed, every communication raises AttributeError and has no effect. *)
Theorem C24_use_after_close : forall D (dev : device D) o w, w_inst w = None -> closing o = false ->
  do_op dev o w = (Err AttributeError, w).
Proof. intros D dev o w I C. rewrite (op_closed dev o w I), C. reflexivity. Qed.
Print Assumptions C24_use_after_close.
(** A resource that is not message based: NotImplementedError, and the resource
    is left open, whatever is then done with the object. *)
Theorem C24_not_message_based : forall D (dev : device D) address w d ops, dev_open dev (w_dev w) address = (Ok false, d) ->
  exists w1, construct dev address w = (Err NotImplementedError, w1) /\
    w_log (run_ops dev ops w1) = w_log w ++ [Opened (w_next w)].
Proof.
  intros D dev address w d ops O. exists (World d (S (w_next w)) (w_log w ++ [Opened (w_next w)]) None). split.
  - unfold construct, iobind, set_inst, open_resource. cbn [w_dev w_next w_log w_inst]. rewrite O. reflexivity.
  - set (w1 := World d (S (w_next w)) (w_log w ++ [Opened (w_next w)]) None).
    assert (H : run_ops dev ops w1 = w1); [|rewrite H; reflexivity].
    assert (I : w_inst w1 = None) by reflexivity. clearbody w1. induction ops as [|o ops IH]; [reflexivity|]. cbn. rewrite (op_closed dev o w1 I). exact IH.
Qed.
Print Assumptions C24_not_message_based.
Definition fresh : world nat := World 0%nat 0%nat [] None.
Example C24_met :
  fst (construct (scripted (fun _ => str "1")) (str "TCPIP::1") fresh) = Ok tt /\
  w_log (run_ops (scripted (fun _ => str "1")) [OAsk (str "*IDN?"); OExit; OClose; OSend (str "*RST"); ODel] (snd (construct (scripted (fun _ => str "1")) (str "TCPIP::1") fresh)))
  = [Opened 0; Queried 0 (str "*IDN?") (str "1"); Closed 0].
Proof. split; reflexivity. Qed.

(** ** C18 *)
(** connect probes the address, closes the probing resource on every path, and
    only then creates the driver of the first pattern matching the identity. *)
Theorem C18_connect : forall D (dev : device D) driver re_match new_driver reg address w res w',
  connect dev driver re_match new_driver reg address w = (res, w') ->
  let n := w_next w in
  (* the address could not be opened *)
  (exists e, res = Err e /\ w_log w' = w_log w) \/
  (* no driver is created: the probe or the dispatch failed *)
  (exists e mid last, res = Err e /\ w_log w' = w_log w ++ [Opened n] ++ mid ++ [last] /\ (last = Closed n \/ last = CloseFailed n e)) \/
  (* the driver is created, in a world where the probing resource is closed *)
  (exists reply d w1, w_log w1 = w_log w ++ [Opened n; Wrote n (str "*IDN?"); Queried n (str "*IDN?") reply; Closed n] /\
     first_match re_match reg (strip reply) d /\ snd (new_driver d address w1) = w' /\
     res = match fst (new_driver d address w1) with Ok _ => Ok d | Err e => Err e end).
Proof.
  intros D dev driver re_match new_driver reg address w res w' E n.
  destruct (probe dev address w) as [rp w1] eqn:P.
  destruct (probe_spec dev address w rp w1 P) as [(e & -> & L & _)|(mid & last & L & _ & _ & LA & M)].
  - left. exists e. rewrite (connect_failed _ _ _ _ _ _ _ _ _ P) in E. injection E as <- <-. split; [reflexivity|exact L].
  - destruct rp as [identity|e].
    + rewrite (connect_probed _ _ _ _ _ _ _ _ _ P) in E.
      destruct LA as [->|(e & -> & X)]; [|discriminate].
      destruct M as [(reply & -> & R)|[(e & _ & R)|(-> & R)]]; try (specialize (R eq_refl); discriminate).
      specialize (R eq_refl). injection R as ->.
      destruct (dispatch driver re_match reg (strip reply)) as [d|e] eqn:DS.
      * right. right. exists reply, d, w1. apply dispatch_first in DS. refine (conj L (conj DS _)).
        destruct (new_driver d address w1) as [[u|e] w2]; injection E as <- <-; split; reflexivity.
      * right. left. exists e, [Wrote n (str "*IDN?"); Queried n (str "*IDN?") reply], (Closed n). injection E as <- <-.
        refine (conj eq_refl (conj L (or_introl eq_refl))).
    + rewrite (connect_failed _ _ _ _ _ _ _ _ _ P) in E. injection E as <- <-. right. left. exists e, mid, last.
      refine (conj eq_refl (conj L _)). destruct LA as [LA|(e' & LA & X)]; [left; exact LA|right]. injection X as ->. exact LA.
Qed.
Print Assumptions C18_connect.
(** After a successful probe: LookupError iff no registered pattern matches. *)
Theorem C18_lookup : forall D (dev : device D) driver re_match new_driver reg address w w1 identity,
  probe dev address w = (Ok identity, w1) -> (forall k, re_match k identity <> Err LookupError) ->
  (forall d w2, fst (new_driver d address w2) <> Err LookupError) ->
  (fst (connect dev driver re_match new_driver reg address w) = Err LookupError <-> no_match re_match reg identity).
Proof.
  intros D dev driver re_match new_driver reg address w w1 identity P R N. rewrite (connect_probed _ _ _ _ _ _ _ _ _ P). split.
  - intro H. apply dispatch_lookup; [exact R|]. destruct (dispatch driver re_match reg identity) as [d|e] eqn:DS; [|exact H].
    exfalso. specialize (N d w1). destruct (new_driver d address w1) as [[u|e] w2]; cbn [fst] in *; [discriminate|]. injection H as ->. exact (N eq_refl).
  - intro H. rewrite (dispatch_none driver re_match reg identity H). reflexivity.
Qed.
Print Assumptions C18_lookup.
(** install_driver: any sequence of registrations keeps one entry per pattern,
    with the driver installed last; new patterns come after all older ones. *)
Theorem C18_install : forall driver (reg reg' : registry driver) regex d, NoDup (map fst reg) ->
  install_driver driver reg regex d true = Ok reg' ->
  NoDup (map fst reg') /\
  (forall k e, In (k, e) reg' <-> (k = regex /\ e = d) \/ (k <> regex /\ In (k, e) reg)) /\
  (In regex (map fst reg) -> map fst reg' = map fst reg) /\
  (~ In regex (map fst reg) -> reg' = reg ++ [(regex, d)]).
Proof.
  intros driver reg reg' regex d N E. cbn in E. injection E as <-. refine (conj _ (conj _ (conj _ _))).
  - apply register_nodup, N.
  - intros k e. apply register_in, N.
  - intro I. rewrite register_keys. assert (X : existsb (str_eqb regex) (map fst reg) = true) by (apply existsb_exists; exists regex; split; [exact I|apply str_eqb_refl]).
    rewrite X. reflexivity.
  - clear N. induction reg as [|[k e] reg IH]; intro I; [reflexivity|]. cbn in *.
    rewrite str_eqb_neq by (intro X; apply I; left; exact X). rewrite IH by (intro X; apply I; right; exact X). reflexivity.
Qed.
Print Assumptions C18_install.
Theorem C18_install_rejects : forall driver (reg : registry driver) regex d, install_driver driver reg regex d false = Err TypeError.
Proof. reflexivity. Qed.
Print Assumptions C18_install_rejects.
(** The built-in patterns, as sets of identities. *)
Theorem C18_builtin : forall digit identity, ascii_digits digit ->
  (dispatch builtin (builtin_match digit) builtin_registry identity = Ok MSO4000Family <->
     exists m rest, identity = identity_of m rest /\ model4000 digit m) /\
  (dispatch builtin (builtin_match digit) builtin_registry identity = Ok MSO456Family <->
     exists m rest, identity = identity_of m rest /\ model456_pattern digit m) /\
  ~ (builtin_match digit pattern_mso4000 identity = Ok true /\ builtin_match digit pattern_mso456 identity = Ok true).
Proof.
  intros digit identity A. pose proof (match4000 digit identity) as M4. pose proof (match456 digit identity) as M5.
  pose proof (patterns_exclusive digit A identity) as X. rewrite builtin_dispatch.
  refine (conj _ (conj _ _)).
  - split.
    + destruct (matches digit re_mso4000 identity) eqn:E; [|destruct (matches digit re_mso456 identity); discriminate].
      intros _. destruct (proj1 M4 eq_refl) as (m & rest & M & I). exists m, rest. split; assumption.
    + intros (m & rest & I & M). rewrite (proj2 M4 (ex_intro _ m (ex_intro _ rest (conj M I)))). reflexivity.
  - split.
    + destruct (matches digit re_mso4000 identity) eqn:E; [discriminate|]. destruct (matches digit re_mso456 identity) eqn:F; [|discriminate].
      intros _. destruct (proj1 M5 eq_refl) as (m & rest & M & I). exists m, rest. split; assumption.
    + intros (m & rest & I & M). assert (F := proj2 M5 (ex_intro _ m (ex_intro _ rest (conj M I)))). rewrite F in *.
      destruct (matches digit re_mso4000 identity) eqn:E; [destruct (X eq_refl eq_refl)|reflexivity].
  - intros [H K]. unfold builtin_match in H, K. rewrite str_eqb_refl in H, K. replace (str_eqb pattern_mso456 pattern_mso4000) with false in K by reflexivity.
    injection H as H. injection K as K. exact (X H K).
Qed.
Print Assumptions C18_builtin.
(** A model accepted by a family constructor is dispatched to that family, if
    the identity continues after the model as *IDN? replies do. *)
Theorem C18_family : forall digit model rest, ascii_digits digit -> ~ In 44 model -> (forall m, model <> m ++ [10]) ->
  (check_identity digit re_model4000 (identity_of model rest) = Ok tt <->
     dispatch builtin (builtin_match digit) builtin_registry (identity_of model rest) = Ok MSO4000Family) /\
  (check_identity digit re_model456 (identity_of model rest) = Ok tt <-> In model models456) /\
  (check_identity digit re_model456 (identity_of model rest) = Ok tt ->
     dispatch builtin (builtin_match digit) builtin_registry (identity_of model rest) = Ok MSO456Family).
Proof.
  intros digit model rest A NC NL. destruct (C18_builtin digit (identity_of model rest) A) as (B4 & B5 & _).
  rewrite !check_model by exact NC. pose proof (family4000 digit model NL) as F4. pose proof (family456 digit model NL) as F5.
  assert (IFF : (if matches digit re_model456 model then Ok tt else Err ValueError) = Ok tt <-> In model models456).
  { destruct (matches digit re_model456 model); split; intro H; try discriminate; try reflexivity; [apply F5; reflexivity|]. apply F5 in H. discriminate. }
  refine (conj _ (conj IFF _)).
  - rewrite B4. split.
    + destruct (matches digit re_model4000 model); [|discriminate]. intros _. exists model, rest. split; [reflexivity|apply F4; reflexivity].
    + intros (m & rest' & I & M). destruct (identity_inj _ _ _ _ NC (model4000_no_comma digit A _ M) I) as [<- _].
      apply F4 in M. rewrite M. reflexivity.
  - intro H. apply IFF in H. apply B5. exists model, rest. split; [reflexivity|]. apply (models456_pattern digit A), H.
Qed.
Print Assumptions C18_family.
(** The converse fails for the 4/5/6 series: connect picks a driver whose
    constructor then rejects the identity. *)
Definition ascii_digit (c : Z) : bool := (48 <=? c) && (c <=? 57).
Theorem C18_converse_refuted : exists model rest, ~ In 44 model /\
  dispatch builtin (builtin_match ascii_digit) builtin_registry (identity_of model rest) = Ok MSO456Family /\
  check_identity ascii_digit re_model456 (identity_of model rest) = Err ValueError.
Proof. exists (str "MSO45"), (str "C0,FV:1"). split; [cbn; intuition discriminate|]. split; vm_compute; reflexivity. Qed.
Print Assumptions C18_converse_refuted.
Example C18_met : ascii_digits ascii_digit /\
  dispatch builtin (builtin_match ascii_digit) builtin_registry (identity_of (str "MDO3104") (str "C0,FV:1")) = Ok MSO4000Family /\
  dispatch builtin (builtin_match ascii_digit) builtin_registry (identity_of (str "MSO58LP") (str "C0,FV:1")) = Ok MSO456Family /\
  dispatch builtin (builtin_match ascii_digit) builtin_registry (str "KEYSIGHT,DSOX,1") = Err LookupError.
Proof. split; [intros c _; reflexivity|]. repeat split; vm_compute; reflexivity. Qed.
Example C18_connect_met :
  let new (d : builtin) a := iobind (open_resource (scripted (fun _ => str "TEKTRONIX,MSO44,1,2")) a) (fun _ => ret tt) in
  fst (connect (scripted (fun _ => str "TEKTRONIX,MSO44,1,2")) builtin (builtin_match ascii_digit) new builtin_registry (str "USB0") fresh) = Ok MSO456Family.
Proof. vm_compute. reflexivity. Qed.
