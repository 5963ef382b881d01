(** C59: stop, run, single and force. *)
From Coq Require Import String ZArith Bool QArith Lia List.
Import ListNotations.
From Verif Require Import Base PyStr PyStrProofs ScpiModel ScpiProofs IOModel EquipModel EquipSpec EquipProofs TekModel ScopeModel ScopeSpec
  ScopeProofs ScopeUseModel ScopeUseSpec.
From Verif Require ScopeProps.
Local Open Scope Z_scope.
Local Open Scope list_scope.

Section Performs.
Context {D : Type}.
Variable dev : device D.
Variable user : behaviour.
Variable r : nat.
(** [m] carries out the steps. *)
Definition performs (m : io D unit) (steps : list step) : Prop :=
  forall w res w', w_inst w = Some r -> m w = (res, w') ->
    w_inst w' = Some r /\ exists evs, w_log w' = w_log w ++ evs /\ carried_out user r steps res evs.
Lemma performs_then (m : io D unit) s k rest :
  (forall w res w', w_inst w = Some r -> m w = (res, w') -> w_inst w' = Some r /\
     exists evs, w_log w' = w_log w ++ evs /\ match res with Ok _ => did user r s evs | Err e => broke user r s e evs end) ->
  performs k rest -> performs (iobind m (fun _ => k)) (s :: rest).
Proof.
  intros M K w res w' I E. unfold iobind in E. destruct (m w) as [[u|e] w1] eqn:X; destruct (M _ _ _ I X) as (I1 & evs & L & DB).
  - destruct (K _ _ _ I1 E) as (I2 & evs' & L' & C). split; [exact I2|]. exists (evs ++ evs'). split; [rewrite L', L, app_assoc; reflexivity|].
    constructor; assumption.
  - injection E as <- <-. split; [exact I1|]. exists evs. split; [exact L|]. apply co_failed. exact DB.
Qed.
Lemma performs_end (m : io D unit) s :
  (forall w res w', w_inst w = Some r -> m w = (res, w') -> w_inst w' = Some r /\
     exists evs, w_log w' = w_log w ++ evs /\ match res with Ok _ => did user r s evs | Err e => broke user r s e evs end) ->
  performs m [s].
Proof.
  intros M w res w' I E. destruct (M _ _ _ I E) as (I1 & evs & L & DB). split; [exact I1|]. exists evs. split; [exact L|].
  destruct res as [[]|e]; [|apply co_failed; exact DB]. rewrite <- (app_nil_r evs). apply co_step; [exact DB|constructor].
Qed.
Lemma send_step c w res w' : w_inst w = Some r -> send dev (str c) w = (res, w') -> w_inst w' = Some r /\
  exists evs, w_log w' = w_log w ++ evs /\ match res with Ok _ => did user r (Cmd c) evs | Err e => broke user r (Cmd c) e evs end.
Proof.
  intros I E. destruct (send_spec dev _ _ _ _ _ I E) as [[SI _] [[-> L]|(e & -> & L)]]; (split; [congruence|]); eexists; (split; [exact L|reflexivity]).
Qed.
Lemma wait_step c states n add w res w' : w_inst w = Some r -> wait_for dev c states n (option_map str add) w = (res, w') -> w_inst w' = Some r /\
  exists evs, w_log w' = w_log w ++ evs /\
    match res with Ok _ => did user r (Wait c states n add) evs | Err e => broke user r (Wait c states n add) e evs end.
Proof.
  intros I E. unfold wait_for, iobind in E.
  destruct (ask_and_wait dev (str c) (map str states) n (option_map str add) w) as [ra w1] eqn:X.
  destruct (ask_and_wait_spec dev _ _ _ _ _ _ _ _ I X) as [[SI _] [(b & rp & -> & L & F & W & N)|[(b & rp & -> & L & F & N)|(e & -> & evs & ev & L & FL)]]];
    injection E as <- <-; (split; [congruence|]); eexists; (split; [exact L|]).
  - exists b, rp. auto.
  - left. exists b, rp. auto.
  - right. exists evs, ev. auto.
Qed.
Lemma user_step (m : io D unit) w res w' : behaves r m user -> w_inst w = Some r -> m w = (res, w') -> w_inst w' = Some r /\
  exists evs, w_log w' = w_log w ++ evs /\ match res with Ok _ => did user r User evs | Err e => broke user r User e evs end.
Proof. intros B I E. destruct (B _ _ _ I E) as (I1 & evs & L & U). split; [exact I1|]. exists evs. split; [exact L|]. destruct res as [[]|e]; exact U. Qed.
End Performs.

(** What each method says to the instrument, and when it returns: the steps are
    done in order, the first failure ends the method with its exception, and a
    wait ends only with one of the awaited states. *)
Theorem C59_stop : forall D (dev : device D) user r n w res w', w_inst w = Some r -> stop dev n w = (res, w') ->
  exists evs, w_log w' = w_log w ++ evs /\
    carried_out user r [Cmd "ACQUIRE:STATE STOP"; Wait "TRIGGER:STATE?" ["SAVE"%string] n None] res evs.
Proof.
  intros D dev user r n w res w' I E. refine (proj2 (_ w res w' I E)). unfold stop.
  apply (performs_then user r); [exact (send_step dev user r _)|]. apply performs_end. exact (wait_step dev user r _ _ n None).
Qed.
Print Assumptions C59_stop.
Theorem C59_run : forall D (dev : device D) user r normal n w res w', w_inst w = Some r -> run dev normal n w = (res, w') ->
  exists evs, w_log w' = w_log w ++ evs /\
    carried_out user r [Cmd "ACQUIRE:STATE STOP"; Cmd "ACQUIRE:STOPAFTER RUNSTOP";
      Cmd (if normal then "TRIGGER:A:MODE NORMAL" else "TRIGGER:A:MODE AUTO"); Cmd "ACQUIRE:STATE RUN";
      Wait "TRIGGER:STATE?" ["ARMED"; "AUTO"; "TRIGGER"; "READY"]%string n None] res evs.
Proof.
  intros D dev user r normal n w res w' I E. refine (proj2 (_ w res w' I E)). unfold run.
  do 2 (apply (performs_then user r); [exact (send_step dev user r _)|]).
  apply (performs_then user r); [destruct normal; [exact (send_step dev user r "TRIGGER:A:MODE NORMAL")|exact (send_step dev user r "TRIGGER:A:MODE AUTO")]|].
  apply (performs_then user r); [exact (send_step dev user r _)|].
  apply performs_end. exact (wait_step dev user r _ _ n None).
Qed.
Print Assumptions C59_run.
Theorem C59_single : forall D (dev : device D) user r cmd force n w res w', w_inst w = Some r -> behaves r cmd user ->
  single dev cmd force n w = (res, w') ->
  exists evs, w_log w' = w_log w ++ evs /\
    carried_out user r [Cmd "ACQUIRE:STATE STOP"; Wait "TRIGGER:STATE?" ["SAVE"%string] n None;
      Cmd "ACQUIRE:STOPAFTER SEQUENCE"; Cmd "ACQUIRE:STATE RUN"; User;
      Wait "ACQUIRE:STATE?" ["0"%string] n (if force then Some "TRIGGER FORCE"%string else None);
      Wait "TRIGGER:STATE?" ["SAVE"%string] n None; Wait "ACQUIRE:NUMACQ?" ["1"%string] 20 None] res evs.
Proof.
  intros D dev user r cmd force n w res w' I B E. refine (proj2 (_ w res w' I E)). unfold single.
  apply (performs_then user r); [exact (send_step dev user r _)|].
  apply (performs_then user r); [exact (wait_step dev user r _ _ n None)|].
  do 2 (apply (performs_then user r); [exact (send_step dev user r _)|]).
  apply (performs_then user r); [exact (fun w res w' => user_step user r cmd w res w' B)|].
  apply (performs_then user r); [destruct force; [exact (wait_step dev user r _ _ n (Some "TRIGGER FORCE"%string))|exact (wait_step dev user r _ _ n None)]|].
  apply (performs_then user r); [exact (wait_step dev user r _ _ n None)|].
  apply performs_end. exact (wait_step dev user r _ _ 20 None).
Qed.
Print Assumptions C59_single.
Theorem C59_force : forall D (dev : device D) user r w res w', w_inst w = Some r -> force dev w = (res, w') ->
  exists evs, w_log w' = w_log w ++ evs /\ carried_out user r [Cmd "TRIGGER FORCE"] res evs.
Proof. intros D dev user r w res w' I E. refine (proj2 (_ w res w' I E)). apply performs_end. exact (send_step dev user r _). Qed.
Print Assumptions C59_force.

(** ** On an instrument that acquires *)
Section Acquire.
Context {D : Type} {dev : device D} {stopped : D -> Prop} {runs : D -> nat} {taken : D -> Z}.
Hypothesis A : acquires dev stopped runs taken.
Lemma send_runs c w w' : c <> str "ACQUIRE:STATE RUN" -> send dev c w = (Ok tt, w') -> runs (w_dev w') = runs (w_dev w) /\ w_inst w' = w_inst w.
Proof.
  intros N E. unfold send, iobind, get_inst, write_resource, raise in E. destruct (w_inst w) eqn:W; [|discriminate E].
  destruct (dev_write dev (w_dev w) c) as [rw d'] eqn:X. injection E as -> <-.
  split; [exact (acquires_write _ _ _ _ A _ _ _ N X)|exact W].
Qed.
Lemma run_runs w w' : send dev (str "ACQUIRE:STATE RUN") w = (Ok tt, w') -> runs (w_dev w') = S (runs (w_dev w)) /\ w_inst w' = w_inst w.
Proof.
  intros E. unfold send, iobind, get_inst, write_resource, raise in E. destruct (w_inst w) eqn:W; [|discriminate E].
  destruct (dev_write dev (w_dev w) (str "ACQUIRE:STATE RUN")) as [rw d'] eqn:X. injection E as -> <-.
  split; [exact (acquires_run _ _ _ _ A _ _ X)|exact W].
Qed.
(** After a wait: the world in which the last question was answered. *)
Definition waited (c : pystr) (states : list pystr) (w w' : world D) : Prop :=
  w_inst w' = w_inst w /\ runs (w_dev w') = runs (w_dev w) /\
  exists d a, dev_query dev d c = (Ok a, w_dev w') /\ In (strip a) states.
Lemma ask_runs c w s w' : ask dev c w = (Ok s, w') -> w_inst w' = w_inst w /\ runs (w_dev w') = runs (w_dev w) /\
  (stopped (w_dev w) -> stopped (w_dev w') /\ taken (w_dev w') = taken (w_dev w)) /\
  exists d a, dev_query dev d c = (Ok a, w_dev w') /\ s = strip a.
Proof.
  intros E. unfold ask, iobind, get_inst, query_resource, raise, ret in E. destruct (w_inst w) eqn:W; [|discriminate E].
  destruct (dev_query dev (w_dev w) c) as [[a|e] d'] eqn:X; [|discriminate E]. injection E as <- <-. cbn [w_inst w_dev].
  destruct (acquires_query _ _ _ _ A _ _ _ _ X) as [R ST]. refine (conj W (conj R (conj ST _))). exists (w_dev w), a. split; [exact X|reflexivity].
Qed.
Definition no_run (add : option pystr) : Prop := match add with Some c => c <> str "ACQUIRE:STATE RUN" | None => True end.
Lemma poll_runs c add w s w' : no_run add -> poll dev c add w = (Ok s, w') -> w_inst w' = w_inst w /\ runs (w_dev w') = runs (w_dev w) /\
  (add = None -> stopped (w_dev w) -> stopped (w_dev w') /\ taken (w_dev w') = taken (w_dev w)) /\
  exists d a, dev_query dev d c = (Ok a, w_dev w') /\ s = strip a.
Proof.
  intros N E. destruct add as [x|]; cbn [poll] in E.
  - unfold iobind in E. destruct (send dev x w) as [[[]|e] w1] eqn:X; [|discriminate E].
    destruct (send_runs _ _ _ N X) as [R1 I1]. destruct (ask_runs _ _ _ _ E) as (I2 & R2 & _ & Q).
    refine (conj (eq_trans I2 I1) (conj (eq_trans R2 R1) (conj _ Q))). discriminate.
  - destruct (ask_runs _ _ _ _ E) as (I2 & R2 & ST & Q). exact (conj I2 (conj R2 (conj (fun _ => ST) Q))).
Qed.
Lemma loop_runs fuel : forall c states add t s w t' s' w', no_run add -> wait_loop dev fuel c states add t s w = (Ok (t', s'), w') ->
  w_inst w' = w_inst w /\ runs (w_dev w') = runs (w_dev w) /\
  (add = None -> stopped (w_dev w) -> stopped (w_dev w') /\ taken (w_dev w') = taken (w_dev w)) /\
  ((w' = w /\ s' = s) \/ exists d a, dev_query dev d c = (Ok a, w_dev w') /\ s' = strip a) /\ (0 <= t' -> In s' states).
Proof.
  induction fuel as [|fuel IH]; intros c states add t s w t' s' w' N E; cbn [wait_loop] in E.
  - destruct (negb (mem s states) && (0 <=? t)) eqn:B; [discriminate E|]. injection E as <- <- <-.
    refine (conj eq_refl (conj eq_refl (conj (fun _ ST => conj ST eq_refl) (conj (or_introl (conj eq_refl eq_refl)) _)))).
    intro T. apply mem_spec. destruct (mem s states); [reflexivity|]. cbn in B. lia.
  - destruct (negb (mem s states) && (0 <=? t)) eqn:B.
    + unfold iobind in E at 1. cbn [sleep] in E. unfold iobind in E.
      destruct (poll dev c add _) as [[s1|e] w1] eqn:P; [|discriminate E].
      destruct (poll_runs _ _ _ _ _ N P) as (I1 & R1 & ST1 & Q1). cbn [w_inst w_dev] in * .
      destruct (IH _ _ _ _ _ _ _ _ _ N E) as (I2 & R2 & ST2 & Q2 & T).
      refine (conj (eq_trans I2 I1) (conj (eq_trans R2 R1) (conj _ (conj _ T)))).
      * intros NA ST. destruct (ST1 NA ST) as [ST' C1]. destruct (ST2 NA ST') as [ST'' C2]. split; [exact ST''|congruence].
      * right. destruct Q2 as [[-> ->]|Q2]; [exact Q1|exact Q2].
    + injection E as <- <- <-.
      refine (conj eq_refl (conj eq_refl (conj (fun _ ST => conj ST eq_refl) (conj (or_introl (conj eq_refl eq_refl)) _)))).
      intro T. apply mem_spec. destruct (mem s states); [reflexivity|]. cbn in B. lia.
Qed.
Lemma wait_runs c states n add w w' : no_run add -> wait_for dev c states n add w = (Ok tt, w') ->
  waited (str c) (map str states) w w' /\ (add = None -> stopped (w_dev w) -> stopped (w_dev w') /\ taken (w_dev w') = taken (w_dev w)).
Proof.
  intros N E. unfold wait_for, iobind, ask_and_wait, iobind in E.
  destruct (poll dev (str c) add w) as [[s0|e] w1] eqn:P; [|discriminate E].
  destruct (poll_runs _ _ _ _ _ N P) as (I1 & R1 & ST1 & Q1).
  destruct (wait_loop dev _ (str c) (map str states) add n s0 w1) as [[[t' s']|e] w2] eqn:L; [|discriminate E].
  destruct (loop_runs _ _ _ _ _ _ _ _ _ _ N L) as (I2 & R2 & ST2 & Q2 & T).
  destruct (t' <? 0) eqn:B; [discriminate E|]. injection E as <-. apply Z.ltb_ge in B. split.
  - refine (conj (eq_trans I2 I1) (conj (eq_trans R2 R1) _)).
    destruct Q2 as [[-> ->]|(d & a & Q & ->)].
    + destruct Q1 as (d & a & Q & ->). exists d, a. split; [exact Q|exact (T B)].
    + exists d, a. split; [exact Q|exact (T B)].
  - intros NA ST. destruct (ST1 NA ST) as [ST' C1]. destruct (ST2 NA ST') as [ST'' C2]. split; [exact ST''|congruence].
Qed.
Lemma waited_save n w w' : wait_for dev "TRIGGER:STATE?" ["SAVE"%string] n None w = (Ok tt, w') ->
  w_inst w' = w_inst w /\ runs (w_dev w') = runs (w_dev w) /\ stopped (w_dev w').
Proof.
  intros E. destruct (wait_runs _ _ _ None _ _ Logic.I E) as ((I & R & d & a & Q & J) & _). refine (conj I (conj R _)).
  apply (acquires_state _ _ _ _ A _ _ _ Q). destruct J as [J|[]]. symmetry. exact J.
Qed.
End Acquire.

Lemma then_inv {D X} (m : io D unit) (k : io D X) w x w' : iobind m (fun _ => k) w = (Ok x, w') ->
  exists w1, m w = (Ok tt, w1) /\ k w1 = (Ok x, w').
Proof. unfold iobind. destruct (m w) as [[[]|e] w1]; [|discriminate]. intro E. exists w1. auto. Qed.
Local Ltac step_ E H := apply then_inv in E; let w := fresh "w" in destruct E as (w & H & E).

Local Ltac sends_ A H R := let T := fresh in pose proof (fun N => send_runs A _ _ _ N H) as T;
  destruct T as [R _]; [intro; match goal with b : bool |- _ => destruct b | _ => idtac end; discriminate|].

(** After stop the instrument is stopped, and no acquisition was started. *)
Theorem C59_stopped : forall D (dev : device D) stopped runs taken n w w', acquires dev stopped runs taken ->
  stop dev n w = (Ok tt, w') -> stopped (w_dev w') /\ runs (w_dev w') = runs (w_dev w).
Proof.
  intros D dev stopped runs taken n w w' A E. unfold stop in E. step_ E H1.
  sends_ A H1 R1. destruct (waited_save A _ _ _ E) as (_ & R2 & ST).
  split; [exact ST|congruence].
Qed.
Print Assumptions C59_stopped.
(** run starts one acquisition. *)
Theorem C59_started : forall D (dev : device D) stopped runs taken normal n w w', acquires dev stopped runs taken ->
  run dev normal n w = (Ok tt, w') -> runs (w_dev w') = S (runs (w_dev w)).
Proof.
  intros D dev stopped runs taken normal n w w' A E. unfold run in E. step_ E H1. step_ E H2. step_ E H3. step_ E H4.
  sends_ A H1 R1. sends_ A H2 R2.
  sends_ A H3 R3. destruct (run_runs A _ _ H4) as [R4 _].
  destruct (wait_runs A _ _ _ None _ _ Logic.I E) as ((_ & R5 & _) & _). congruence.
Qed.
Print Assumptions C59_started.
(** After single the instrument is stopped and holds exactly one waveform, taken
    in an acquisition started by this call. *)
Theorem C59_one_waveform : forall D (dev : device D) stopped runs taken cmd force n w w', acquires dev stopped runs taken ->
  no_restart runs cmd -> single dev cmd force n w = (Ok tt, w') ->
  stopped (w_dev w') /\ taken (w_dev w') = 1 /\ runs (w_dev w') = S (runs (w_dev w)).
Proof.
  intros D dev stopped runs taken cmd force n w w' A NR E. unfold single in E.
  step_ E H1. step_ E H2. step_ E H3. step_ E H4. step_ E H5. step_ E H6. step_ E H7.
  sends_ A H1 R1. destruct (waited_save A _ _ _ H2) as (_ & R2 & _).
  sends_ A H3 R3. destruct (run_runs A _ _ H4) as [R4 _].
  destruct (NR _ _ H5) as [_ R5].
  assert (N6 : no_run (if force then Some (str "TRIGGER FORCE") else None)) by (destruct force; [discriminate|exact Logic.I]).
  destruct (wait_runs A _ _ _ _ _ _ N6 H6) as ((_ & R6 & _) & _).
  destruct (waited_save A _ _ _ H7) as (_ & R7 & ST).
  destruct (wait_runs A _ _ _ None _ _ Logic.I E) as ((_ & R8 & d & a & Q & J) & ST8).
  destruct (ST8 eq_refl ST) as [ST' _].
  refine (conj ST' (conj _ _)); [|congruence].
  apply (acquires_count _ _ _ _ A _ _ _ 1 Q). destruct J as [J|[]]. rewrite <- J. reflexivity.
Qed.
Print Assumptions C59_one_waveform.

(** An acquisition of several waveforms (modes AVERAGE and ENVELOPE) never
    satisfies single: it times out although the waveform is there. *)
Theorem C59_average_refuted : forall D (dev : device D) stopped runs taken cmd force n w w' k, acquires dev stopped runs taken ->
  (forall d a d', dev_query dev d (str "ACQUIRE:NUMACQ?") = (Ok a, d') -> exists j, parse_int (strip a) = Some j /\ (j = 0 \/ j = k)) -> 1 < k ->
  single dev cmd force n w <> (Ok tt, w').
Proof.
  intros D dev stopped runs taken cmd force n w w' k A NC K E. unfold single in E.
  step_ E H1. step_ E H2. step_ E H3. step_ E H4. step_ E H5. step_ E H6. step_ E H7.
  destruct (wait_runs A _ _ _ None _ _ Logic.I E) as ((_ & _ & d & a & Q & J) & _).
  destruct (NC _ _ _ Q) as (j & P & JK). destruct J as [J|[]]. rewrite <- J in P. vm_compute in P. injection P as <-. lia.
Qed.
Print Assumptions C59_average_refuted.

(** ** An instrument that meets the hypotheses *)
(** It needs a few more questions before it stops and then holds [a_want]
    waveforms. *)
Record acq := Acq { a_left : nat; a_runs : nat; a_taken : Z; a_want : Z }.
Definition tick (d : acq) : acq :=
  match a_left d with
  | O => d
  | S k => Acq k (a_runs d) (if Nat.eqb k 0 then a_want d else a_taken d) (a_want d)
  end.
Definition slow : device acq := Device (fun d _ => (Ok true, d)) (fun d => (Ok tt, d))
  (fun d c => (Ok tt, if str_eqb c (str "ACQUIRE:STATE RUN") then Acq 3 (S (a_runs d)) 0 (a_want d)
                      else if str_eqb c (str "ACQUIRE:STATE STOP") then Acq (Nat.min (a_left d) 2) (a_runs d) (a_taken d) (a_want d) else d))
  (fun d c => if str_eqb c (str "TRIGGER:STATE?") then (Ok (str (if Nat.eqb (a_left (tick d)) 0 then "SAVE" else "READY") ++ [10]), tick d)
              else if str_eqb c (str "ACQUIRE:STATE?") then (Ok (str (if Nat.eqb (a_left (tick d)) 0 then "0" else "1") ++ [10]), tick d)
              else if str_eqb c (str "ACQUIRE:NUMACQ?") then (Ok (str_int (a_taken d) ++ [10]), d) else (Ok (str "0"), d))
  (fun d => (Ok [], d)).
Lemma strip_str_int n : parse_int (strip (str_int n ++ [10])) = Some n.
Proof. rewrite ScopeProps.strip_word by apply word_str_int. apply parse_str_int. Qed.
Lemma slow_acquires : acquires slow (fun d => a_left d = 0%nat) a_runs a_taken.
Proof.
  split; cbn [slow dev_write dev_query].
  - intros d d' E. rewrite str_eqb_refl in E. injection E as <-. reflexivity.
  - intros d c d' N E. rewrite str_eqb_neq in E by exact N. injection E as <-. destruct (str_eqb c _); reflexivity.
  - assert (T : forall d, a_runs (tick d) = a_runs d /\ (a_left d = 0%nat -> a_left (tick d) = 0%nat /\ a_taken (tick d) = a_taken d)).
    { intros d. unfold tick. destruct (a_left d) eqn:L; [|split; [reflexivity|discriminate]]. auto. }
    intros d c a d' E. destruct (str_eqb c (str "TRIGGER:STATE?")); [injection E as _ <-; apply T|].
    destruct (str_eqb c (str "ACQUIRE:STATE?")); [injection E as _ <-; apply T|].
    destruct (str_eqb c (str "ACQUIRE:NUMACQ?")); injection E as _ <-; auto.
  - intros d a d' E S. rewrite str_eqb_refl in E. injection E as <- <-.
    destruct (Nat.eqb_spec (a_left (tick d)) 0) as [Z0|N0]; [exact Z0|]. vm_compute in S. discriminate S.
  - intros d a d' n E P. change (str_eqb (str "ACQUIRE:NUMACQ?") (str "TRIGGER:STATE?")) with false in E.
    change (str_eqb (str "ACQUIRE:NUMACQ?") (str "ACQUIRE:STATE?")) with false in E. rewrite str_eqb_refl in E. injection E as <- <-.
    rewrite strip_str_int in P. injection P as <-. reflexivity.
Qed.
Definition busy (want : Z) : world acq := World (Acq 7 4 5 want) 1 [Opened 0] (Some 0%nat).
Example C59_met : exists w1 w2 w3, stop slow 20 (busy 1) = (Ok tt, w1) /\ run slow true 20 (busy 1) = (Ok tt, w2) /\
  single slow sleep true 20 (busy 1) = (Ok tt, w3) /\ no_restart a_runs (@sleep acq) /\
  a_runs (w_dev w3) = 5%nat /\ a_taken (w_dev w3) = 1.
Proof.
  eexists _, _, _. split; [vm_compute; reflexivity|]. split; [vm_compute; reflexivity|]. split; [vm_compute; reflexivity|].
  split; [|split; reflexivity]. intros w w' E. injection E as <-. split; reflexivity.
Qed.
(** Averaging 16 waveforms. *)
Example C59_average_met : exists w', single slow sleep false 20 (busy 16) = (Err TimeoutError, w') /\
  a_left (w_dev w') = 0%nat /\ a_taken (w_dev w') = 16.
Proof. eexists. split; [vm_compute; reflexivity|]. split; reflexivity. Qed.
