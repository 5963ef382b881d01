From Coq Require Import String ZArith Bool List Lia.
Import ListNotations.
From Verif Require Import Base PyStr ScpiModel ScpiProofs IOModel EquipModel EquipSpec.
Local Open Scope Z_scope.

Section Proofs.
Context {D : Type}.
Variable dev : device D.

(** ** Polling *)
Definition same (w w' : world D) : Prop := w_inst w' = w_inst w /\ w_next w' = w_next w.
Lemma same_trans w1 w2 w3 : same w1 w2 -> same w2 w3 -> same w1 w3.
Proof. intros [A B] [A' B']. split; congruence. Qed.
Definition failed (w w' : world D) (e : exn) : Prop :=
  exists evs ev, w_log w' = w_log w ++ evs ++ [ev] /\ failure ev e.
Lemma mem_spec s l : mem s l = true <-> In s l.
Proof.
  unfold mem. rewrite existsb_exists. split.
  - intros (x & I & E). apply str_eqb_eq in E. subst. exact I.
  - intro I. exists s. split; [exact I|apply str_eqb_refl].
Qed.
Lemma send_spec c w r res w' : w_inst w = Some r -> send dev c w = (res, w') ->
  same w w' /\ ((res = Ok tt /\ w_log w' = w_log w ++ [Wrote r c]) \/
                (exists e, res = Err e /\ w_log w' = w_log w ++ [WriteFailed r c e])).
Proof.
  intros I E. unfold send, iobind, get_inst, write_resource in E. rewrite I in E.
  destruct (dev_write dev (w_dev w) c) as [[[]|e] d]; injection E as <- <-; (split; [split; reflexivity|]); cbn.
  - left. split; reflexivity.
  - right. exists e. split; reflexivity.
Qed.
Lemma ask_spec c w r res w' : w_inst w = Some r -> ask dev c w = (res, w') ->
  same w w' /\ ((exists a, res = Ok (strip a) /\ w_log w' = w_log w ++ [Queried r c a]) \/
                (exists e, res = Err e /\ w_log w' = w_log w ++ [QueryFailed r c e])).
Proof.
  intros I E. unfold ask, iobind, get_inst, query_resource, ret in E. rewrite I in E.
  destruct (dev_query dev (w_dev w) c) as [[a|e] d]; injection E as <- <-; (split; [split; reflexivity|]); cbn.
  - left. exists a. split; reflexivity.
  - right. exists e. split; reflexivity.
Qed.
Lemma poll_spec c add w r res w' : w_inst w = Some r -> poll dev c add w = (res, w') ->
  same w w' /\ ((exists a, res = Ok (strip a) /\ w_log w' = w_log w ++ one_poll r c add a) \/
                (exists e, res = Err e /\ failed w w' e)).
Proof.
  intros I E. destruct add as [x|]; cbn in E.
  - unfold iobind in E. destruct (send dev x w) as [rs w1] eqn:S.
    destruct (send_spec _ _ _ _ _ I S) as [SM [[-> L]|(e & -> & L)]].
    + assert (I1 : w_inst w1 = Some r) by (destruct SM; congruence).
      destruct (ask_spec _ _ _ _ _ I1 E) as [SM' [(a & -> & L')|(e & -> & L')]]; (split; [exact (same_trans _ _ _ SM SM')|]).
      * left. exists a. split; [reflexivity|]. rewrite L', L, <- app_assoc. reflexivity.
      * right. exists e. split; [reflexivity|]. exists [Wrote r x], (QueryFailed r c e).
        split; [rewrite L', L, <- app_assoc; reflexivity|]. exists r, c. right. reflexivity.
    + injection E as <- <-. split; [exact SM|]. right. exists e. split; [reflexivity|].
      exists [], (WriteFailed r x e). split; [exact L|]. exists r, x. left. reflexivity.
  - destruct (ask_spec _ _ _ _ _ I E) as [SM' [(a & -> & L')|(e & -> & L')]]; (split; [exact SM'|]).
    + left. exists a. split; [reflexivity|]. exact L'.
    + right. exists e. split; [reflexivity|]. exists [], (QueryFailed r c e).
      split; [exact L'|]. exists r, c. right. reflexivity.
Qed.
Definition polls r c add (l : list pystr) : list event := flat_map (fun a => Slept :: one_poll r c add a) l.
Lemma exchange_polls r c add l : forall a, exchange r c add (a :: l) = one_poll r c add a ++ polls r c add l.
Proof.
  induction l as [|b l IH]; intro a.
  - cbn. rewrite app_nil_r. reflexivity.
  - change (exchange r c add (a :: b :: l)) with (one_poll r c add a ++ [Slept] ++ exchange r c add (b :: l)).
    rewrite IH. reflexivity.
Qed.
Lemma wait_loop_spec fuel : forall c states add t a0 w r res w', w_inst w = Some r -> t + 1 <= Z.of_nat fuel ->
  wait_loop dev fuel c states add t (strip a0) w = (res, w') ->
  same w w' /\
  ((exists replies, let t' := t - Z.of_nat (length replies) in
     res = Ok (t', strip (last (a0 :: replies) [])) /\ w_log w' = w_log w ++ polls r c add replies /\
     Forall (fun a => ~ wanted states a) (removelast (a0 :: replies)) /\
     (wanted states (last (a0 :: replies) []) \/ t' < 0) /\ (replies = [] \/ -1 <= t')) \/
   (exists e, res = Err e /\ failed w w' e)).
Proof.
  induction fuel as [|fuel IH]; intros c states add t a0 w r res w' I F E.
  - cbn [wait_loop] in E. assert (T : (0 <=? t) = false) by (apply Z.leb_gt; lia). rewrite T, andb_false_r in E.
    injection E as <- <-. split; [split; reflexivity|]. left. exists []. cbn.
    rewrite Z.sub_0_r, app_nil_r. repeat (split; try reflexivity). 1: constructor. 1: right; apply Z.leb_gt in T; lia. left; reflexivity.
  - cbn [wait_loop] in E. destruct (mem (strip a0) states) eqn:M; [|destruct (0 <=? t) eqn:T]; cbn [negb andb] in E.
    1,3: injection E as <- <-; (split; [split; reflexivity|]); left; exists []; cbn; rewrite Z.sub_0_r, app_nil_r;
      refine (conj eq_refl (conj eq_refl (conj (Forall_nil _) (conj _ (or_introl eq_refl))))).
    + left. apply mem_spec. exact M.
    + right. apply Z.leb_gt in T. exact T.
    + apply Z.leb_le in T. unfold iobind in E at 1. cbn [sleep] in E.
      set (w0 := World (w_dev w) (w_next w) (w_log w ++ [Slept]) (w_inst w)) in *.
      assert (I0 : w_inst w0 = Some r) by exact I.
      unfold iobind in E. destruct (poll dev c add w0) as [rp w1] eqn:P.
      destruct (poll_spec _ _ _ _ _ _ I0 P) as [SM [(a & -> & L)|(e & -> & evs & ev & L & FL)]].
      2:{ injection E as <- <-. split; [exact SM|]. right. exists e. split; [reflexivity|].
          exists (Slept :: evs), ev. split; [|exact FL]. rewrite L. cbn [w0 w_log]. rewrite <- app_assoc. reflexivity. }
      assert (I1 : w_inst w1 = Some r) by (destruct SM; congruence).
      destruct (IH c states add (t - 1) a w1 r res w' I1 ltac:(lia) E) as [SM' [(rs & -> & L' & U & G & B)|(e & -> & evs & ev & L' & FL)]];
        (split; [exact (same_trans _ _ _ SM SM')|]).
      * left. exists (a :: rs). cbn zeta.
        replace (t - Z.of_nat (length (a :: rs))) with (t - 1 - Z.of_nat (length rs)) by (cbn [length]; lia).
        refine (conj eq_refl (conj _ (conj _ (conj G _)))).
        -- rewrite L', L. cbn [w0 w_log polls flat_map]. rewrite <- !app_assoc. reflexivity.
        -- change (removelast (a0 :: a :: rs)) with (a0 :: removelast (a :: rs)). constructor; [|exact U].
           intro W. apply mem_spec in W. congruence.
        -- right. destruct B as [->|B]; [cbn; lia|exact B].
      * right. exists e. split; [reflexivity|]. exists (Slept :: one_poll r c add a ++ evs), ev. split; [|exact FL].
        rewrite L', L. cbn [w0 w_log]. rewrite <- !app_assoc. cbn [app]. rewrite <- app_assoc. reflexivity.
Qed.
Lemma removelast_last {A} (l : list A) d : l <> [] -> l = removelast l ++ [last l d].
Proof. intro H. apply app_removelast_last. exact H. Qed.
Lemma ask_and_wait_spec c states n add w r res w' : w_inst w = Some r -> ask_and_wait dev c states n add w = (res, w') ->
  same w w' /\
  ((exists before reply, res = Ok (strip reply) /\ w_log w' = w_log w ++ exchange r c add (before ++ [reply]) /\
     Forall (fun a => ~ wanted states a) before /\ wanted states reply /\ Z.of_nat (length before) <= n) \/
   (exists before reply, res = Err TimeoutError /\ w_log w' = w_log w ++ exchange r c add (before ++ [reply]) /\
     Forall (fun a => ~ wanted states a) before /\ Z.of_nat (length before) = Z.max 0 (n + 1)) \/
   (exists e, res = Err e /\ failed w w' e)).
Proof.
  intros I E. unfold ask_and_wait, iobind in E.
  destruct (poll dev c add w) as [rp w1] eqn:P.
  destruct (poll_spec _ _ _ _ _ _ I P) as [SM [(a0 & -> & L)|(e & -> & FL)]].
  2:{ injection E as <- <-. split; [exact SM|]. right. right. exists e. split; [reflexivity|exact FL]. }
  assert (I1 : w_inst w1 = Some r) by (destruct SM; congruence).
  destruct (wait_loop dev (Z.to_nat (n + 2)) c states add n (strip a0) w1) as [rl w2] eqn:W.
  destruct (wait_loop_spec (Z.to_nat (n + 2)) c states add n a0 w1 r rl w2 I1 ltac:(lia) W) as [SM' [(rs & -> & L' & U & G & B)|(e & -> & evs & ev & L' & FL)]].
  - assert (X : a0 :: rs = removelast (a0 :: rs) ++ [last (a0 :: rs) []]) by (apply removelast_last; discriminate).
    assert (LG : w_log w2 = w_log w ++ exchange r c add (removelast (a0 :: rs) ++ [last (a0 :: rs) []])).
    { rewrite <- X, exchange_polls, L', L, <- app_assoc. reflexivity. }
    assert (LN : Z.of_nat (length (removelast (a0 :: rs))) = Z.of_nat (length rs)).
    { assert (Y := f_equal (@length _) X). rewrite app_length in Y. cbn [length] in Y. lia. }
    destruct (n - Z.of_nat (length rs) <? 0) eqn:T; cbn in E; injection E as <- <-; (split; [exact (same_trans _ _ _ SM SM')|]).
    + apply Z.ltb_lt in T. right. left. exists (removelast (a0 :: rs)), (last (a0 :: rs) []).
      refine (conj eq_refl (conj LG (conj U _))). rewrite LN. destruct B as [->|B]; cbn [length] in *; lia.
    + apply Z.ltb_ge in T. left. exists (removelast (a0 :: rs)), (last (a0 :: rs) []).
      refine (conj eq_refl (conj LG (conj U (conj _ _)))); [|lia].
      destruct G as [G|G]; [exact G|lia].
  - injection E as <- <-. split; [exact (same_trans _ _ _ SM SM')|]. right. right. exists e. split; [reflexivity|].
    exists (one_poll r c add a0 ++ evs), ev. split; [|exact FL]. rewrite L', L, <- !app_assoc. reflexivity.
Qed.

(** ** Life cycle *)
Definition calm (r : nat) (ev : event) : Prop := is_closed r ev = false /\ (resource_of ev = None \/ resource_of ev = Some r).
Definition polite {A} (r : nat) (m : io D A) : Prop := forall w res w', w_inst w = Some r -> m w = (res, w') ->
  same w w' /\ exists evs, w_log w' = w_log w ++ evs /\ Forall (calm r) evs.
Definition mute {A} (m : io D A) : Prop := forall w, w_inst w = None -> m w = (Err AttributeError, w).
Lemma polite_bind {A B} r (m : io D A) (f : A -> io D B) : polite r m -> (forall a, polite r (f a)) -> polite r (iobind m f).
Proof.
  intros M F w res w' I E. unfold iobind in E. destruct (m w) as [[a|e] w1] eqn:X.
  - destruct (M _ _ _ I X) as [S (evs & L & K)]. assert (I1 : w_inst w1 = Some r) by (destruct S; congruence).
    destruct (F a _ _ _ I1 E) as [S' (evs' & L' & K')]. split; [exact (same_trans _ _ _ S S')|].
    exists (evs ++ evs'). split; [rewrite L', L, app_assoc; reflexivity|]. apply Forall_app. split; assumption.
  - injection E as <- <-. exact (M _ _ _ I X).
Qed.
Lemma polite_ret {A} r (a : A) : polite r (ret a).
Proof. intros w res w' I E. injection E as <- <-. split; [split; reflexivity|]. exists []. rewrite app_nil_r. split; [reflexivity|constructor]. Qed.
Lemma polite_raise {A} r e : polite r (@raise D A e).
Proof. intros w res w' I E. injection E as <- <-. split; [split; reflexivity|]. exists []. rewrite app_nil_r. split; [reflexivity|constructor]. Qed.
Lemma polite_sleep r : polite r sleep.
Proof.
  intros w res w' I E. injection E as <- <-. split; [split; reflexivity|]. exists [Slept]. split; [reflexivity|].
  constructor; [|constructor]. split; [reflexivity|left; reflexivity].
Qed.
Lemma polite_send r c : polite r (send dev c).
Proof.
  intros w res w' I E. destruct (send_spec _ _ _ _ _ I E) as [S [[_ L]|(e & _ & L)]]; (split; [exact S|]); eexists; (split; [exact L|]);
    (constructor; [|constructor]); (split; [reflexivity|right; reflexivity]).
Qed.
Lemma polite_ask r c : polite r (ask dev c).
Proof.
  intros w res w' I E. destruct (ask_spec _ _ _ _ _ I E) as [S [(a & _ & L)|(e & _ & L)]]; (split; [exact S|]); eexists; (split; [exact L|]);
    (constructor; [|constructor]); (split; [reflexivity|right; reflexivity]).
Qed.
Lemma polite_receive r : polite r (receive dev).
Proof.
  intros w res w' I E. unfold receive, iobind, get_inst, raw_resource in E. rewrite I in E.
  destruct (dev_raw dev (w_dev w)) as [[a|e] d]; injection E as <- <-; (split; [split; reflexivity|]); eexists; (split; [reflexivity|]);
    (constructor; [|constructor]); (split; [reflexivity|right; reflexivity]).
Qed.
Lemma polite_poll r c add : polite r (poll dev c add).
Proof. destruct add; cbn; [apply polite_bind; [apply polite_send|intro]|]; apply polite_ask. Qed.
Lemma polite_wait r c states add fuel : forall t s, polite r (wait_loop dev fuel c states add t s).
Proof.
  induction fuel as [|fuel IH]; intros t s; cbn [wait_loop]; destruct (negb (mem s states) && (0 <=? t)).
  - apply polite_raise.
  - apply polite_ret.
  - apply polite_bind; [apply polite_sleep|]. intro. apply polite_bind; [apply polite_poll|]. intro. apply IH.
  - apply polite_ret.
Qed.
Lemma polite_ask_and_wait r c states n add : polite r (ask_and_wait dev c states n add).
Proof.
  unfold ask_and_wait. apply polite_bind; [apply polite_poll|]. intro s. apply polite_bind; [apply polite_wait|].
  intros [t s']. destruct (t <? 0); [apply polite_raise|apply polite_ret].
Qed.
Lemma mute_bind {A B} (m : io D A) (f : A -> io D B) : mute m -> mute (iobind m f).
Proof. intros M w I. unfold iobind. rewrite (M w I). reflexivity. Qed.
Lemma mute_send c : mute (send dev c). Proof. intros w I. unfold send, iobind, get_inst. rewrite I. reflexivity. Qed.
Lemma mute_ask c : mute (ask dev c). Proof. intros w I. unfold ask, iobind, get_inst. rewrite I. reflexivity. Qed.
Lemma mute_receive : mute (receive dev). Proof. intros w I. unfold receive, iobind, get_inst. rewrite I. reflexivity. Qed.
Lemma mute_ask_and_wait c states n add : mute (ask_and_wait dev c states n add).
Proof. apply mute_bind. destruct add; [apply mute_bind, mute_send|apply mute_ask]. Qed.

Lemma op_open r o w res w' : closing o = false -> w_inst w = Some r -> do_op dev o w = (res, w') ->
  same w w' /\ exists evs, w_log w' = w_log w ++ evs /\ Forall (calm r) evs.
Proof.
  intros C I E. refine (_ w res w' I E). change (polite r (do_op dev o)).
  destruct o; try discriminate; cbn [do_op].
  - apply polite_send.
  - apply polite_bind; [apply polite_ask|intro; apply polite_ret].
  - apply polite_bind; [apply polite_receive|intro; apply polite_ret].
  - apply polite_bind; [|intro]; apply polite_send.
  - apply polite_bind; [apply polite_ask_and_wait|intro; apply polite_ret].
Qed.
Lemma op_closed o w : w_inst w = None -> do_op dev o w = (if closing o then Ok tt else Err AttributeError, w).
Proof.
  intro I. destruct o; cbn [do_op closing].
  - apply mute_send, I.
  - refine (_ w I). apply mute_bind, mute_ask.
  - refine (_ w I). apply mute_bind, mute_receive.
  - refine (_ w I). apply mute_bind, mute_send.
  - refine (_ w I). apply mute_bind, mute_ask_and_wait.
  - unfold close, iobind, get_inst. rewrite I. reflexivity.
  - unfold exit, close, iobind, get_inst. rewrite I. reflexivity.
  - unfold del, close, iobind, get_inst. rewrite I. reflexivity.
Qed.
Lemma op_close r o w res w' : closing o = true -> w_inst w = Some r -> do_op dev o w = (res, w') ->
  (res = Ok tt /\ w_inst w' = None /\ w_log w' = w_log w ++ [Closed r] /\ fst (dev_close dev (w_dev w)) = Ok tt) \/
  (exists e, res = Err e /\ w_inst w' = Some r /\ w_log w' = w_log w ++ [CloseFailed r e] /\ fst (dev_close dev (w_dev w)) = Err e).
Proof.
  intros C I E. assert (E' : close dev w = (res, w')) by (destruct o; try discriminate; exact E). clear E.
  unfold close, iobind, get_inst, close_resource, set_inst in E'. rewrite I in E'.
  destruct (dev_close dev (w_dev w)) as [[[]|e] d]; injection E' as <- <-.
  - left. repeat split.
  - right. exists e. refine (conj eq_refl (conj I (conj eq_refl eq_refl))).
Qed.
(** Either still open, or closed and silent since. *)
Definition life (r : nat) (log0 : list event) (w : world D) : Prop :=
  exists evs, Forall (calm r) evs /\
    ((w_inst w = Some r /\ w_log w = log0 ++ evs) \/ (w_inst w = None /\ w_log w = log0 ++ evs ++ [Closed r])).
Lemma life_step r log0 o w : life r log0 w -> life r log0 (snd (do_op dev o w)).
Proof.
  intros (evs & K & [[I L]|[I L]]); destruct (do_op dev o w) as [res w'] eqn:E; cbn [snd].
  - destruct (closing o) eqn:C.
    + destruct (op_close _ _ _ _ _ C I E) as [(_ & I' & L' & _)|(e & _ & I' & L' & _)].
      * exists evs. split; [exact K|]. right. split; [exact I'|]. rewrite L', L, app_assoc. reflexivity.
      * exists (evs ++ [CloseFailed r e]). split; [|left; split; [exact I'|rewrite L', L, app_assoc; reflexivity]].
        apply Forall_app. split; [exact K|]. constructor; [split; [reflexivity|right; reflexivity]|constructor].
    + destruct (op_open _ _ _ _ _ C I E) as [[I' _] (evs' & L' & K')].
      exists (evs ++ evs'). split; [apply Forall_app; split; assumption|]. left. split; [congruence|]. rewrite L', L, app_assoc. reflexivity.
  - rewrite (op_closed _ _ I) in E. injection E as <- <-. exists evs. split; [exact K|]. right. split; assumption.
Qed.
Lemma life_run r log0 ops : forall w, life r log0 w -> life r log0 (run_ops dev ops w).
Proof. induction ops as [|o ops IH]; intros w H; cbn; [exact H|]. apply IH, life_step, H. Qed.
Lemma closes_app l1 l2 r : closes (l1 ++ l2) r = (closes l1 r + closes l2 r)%nat.
Proof. unfold closes. rewrite filter_app, app_length. reflexivity. Qed.
Lemma closes_calm r evs : Forall (calm r) evs -> closes evs r = 0%nat.
Proof. intro K. unfold closes. induction K as [|e evs [C _] K IH]; [reflexivity|]. cbn. rewrite C. exact IH. Qed.
Lemma closed_run r w ops : (forall d, fst (dev_close dev d) = Ok tt) -> w_inst w = Some r \/ w_inst w = None ->
  existsb closing ops = true \/ w_inst w = None -> w_inst (run_ops dev ops w) = None.
Proof.
  intro R. revert w. induction ops as [|o ops IH]; intros w I [C|C]; cbn in *; try discriminate; try exact C.
  - destruct (do_op dev o w) as [res w'] eqn:E. cbn [snd].
    destruct I as [I|I].
    + destruct (closing o) eqn:CO.
      * destruct (op_close _ _ _ _ _ CO I E) as [(_ & I' & _)|(e & _ & _ & _ & X)]; [|rewrite R in X; discriminate].
        apply IH; right; exact I'.
      * destruct (op_open _ _ _ _ _ CO I E) as [[I' _] _]. apply IH; left; [congruence|exact C].
    + rewrite (op_closed _ _ I) in E. injection E as <- <-. apply IH; right; exact I.
  - rewrite (op_closed _ _ C). cbn [snd]. apply IH; right; exact C.
Qed.
End Proofs.
