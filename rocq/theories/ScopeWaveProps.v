(** C60: read_waveform. *)
From Coq Require Import String ZArith Bool QArith Lia List.
Import ListNotations.
From Verif Require Import Base Num PyStr PyStrProofs ScpiModel ScpiProofs ScpiSpec IOModel EquipModel EquipSpec EquipProofs TekModel TekSpec TekProps ScopeModel ScopeSpec
  ScopeProofs ScopeUseModel ScopeUseSpec ScopeAcqProps.
From Verif Require ScopeProps.
Local Open Scope Z_scope.
Local Open Scope list_scope.

(** The conversation of a transfer from channel [name]. *)
Definition transfer_steps (f : family) (name : string) (data : list Z) : list step :=
  [Cmd (match f with F4000 => "SELECT:" ++ name ++ " 1" | F456 => "DISPLAY:GLOBAL:" ++ name ++ ":STATE 1" end);
   Cmd ("DATA:SOURCE " ++ name); Cmd "DATA:START 1"; Cmd "DATA:STOP 1E9";
   Cmd (match f with F4000 => "DATA:WIDTH 1" | F456 => "DATA:WIDTH 2" end);
   Cmd (match f with F4000 => "DATA:ENCDG FASTEST" | F456 => "DATA:ENCDG RIBINARY" end);
   Cmd "HEADER 1"; Cmd "WAVFRM?"]%string ++
  match f with F4000 => [] | F456 => [Pause] end ++ [Read data; Cmd "HEADER 0"].
Lemma str_app a b : str (a ++ b)%string = str a ++ str b.
Proof. induction a as [|c a IH]; [reflexivity|]. cbn [String.append str app]. f_equal. exact IH. Qed.

Lemma plain_str (s : string) : forallb (fun x => (32 <? x) && (x <? 127) && negb (x =? 59) && negb (x =? 63)) (str s) = true -> plain (str s).
Proof. intros H. apply Forall_forall. intros x J. rewrite forallb_forall in H. specialize (H _ J). lia. Qed.
Lemma settable_str (s : string) : forallb (fun x => (32 <? x) && (x <? 127) && negb (x =? 59) && negb (x =? 63)) (str s) && negb (status (str s)) = true -> settable (str s).
Proof. intros H. apply andb_true_iff in H. destruct H as [H N]. split; [apply plain_str, H|apply negb_true_iff, N]. Qed.
Lemma proper_str (s : string) : forallb (fun x => (32 <? x) && (x <? 127) && negb (x =? 34) && negb (x =? 39) && negb (x =? 59)) (str s) = true -> proper (str s).
Proof. intros H. left. apply Forall_forall. intros x J. rewrite forallb_forall in H. specialize (H _ J). lia. Qed.

Section Performs.
Context {D : Type}.
Variable dev : device D.
Variable user : behaviour.
Variable r : nat.
(** Like [performs] for a program that returns the data it reads. *)
Definition obtains (m : io D (list Z)) (steps : list Z -> list step) : Prop :=
  forall w res w', w_inst w = Some r -> m w = (res, w') ->
    w_inst w' = Some r /\ exists data evs, w_log w' = w_log w ++ evs /\
      carried_out user r (steps data) (match res with Ok _ => Ok tt | Err e => Err e end) evs /\ (forall x, res = Ok x -> x = data).
Lemma obtains_then (m : io D unit) s k rest :
  (forall w res w', w_inst w = Some r -> m w = (res, w') -> w_inst w' = Some r /\
     exists evs, w_log w' = w_log w ++ evs /\ match res with Ok _ => did user r s evs | Err e => broke user r s e evs end) ->
  obtains k rest -> obtains (iobind m (fun _ => k)) (fun data => s :: rest data).
Proof.
  intros M K w res w' I E. unfold iobind in E. destruct (m w) as [[u|e] w1] eqn:X; destruct (M _ _ _ I X) as (I1 & evs & L & DB).
  - destruct (K _ _ _ I1 E) as (I2 & data & evs' & L' & C & G). split; [exact I2|]. exists data, (evs ++ evs'). split; [rewrite L', L, app_assoc; reflexivity|].
    split; [|exact G]. constructor; assumption.
  - injection E as <- <-. split; [exact I1|]. exists [], evs. split; [exact L|]. split; [apply co_failed; exact DB|discriminate].
Qed.
Lemma read_step w res w' : w_inst w = Some r -> receive dev w = (res, w') -> w_inst w' = Some r /\
  match res with Ok data => w_log w' = w_log w ++ [ReadRaw r data] | Err e => w_log w' = w_log w ++ [ReadFailed r e] end.
Proof.
  intros I E. unfold receive, iobind, get_inst, raw_resource in E. rewrite I in E.
  destruct (dev_raw dev (w_dev w)) as [[a|e] d]; injection E as <- <-; (split; [exact I|reflexivity]).
Qed.
Lemma pause_step w res w' : w_inst w = Some r -> sleep w = (res, w') -> w_inst w' = Some r /\
  exists evs, w_log w' = @w_log D w ++ evs /\ match res with Ok _ => did user r Pause evs | Err e => broke user r Pause e evs end.
Proof. intros I E. injection E as <- <-. split; [exact I|]. exists [Slept]. split; reflexivity. Qed.
Lemma obtains_data : obtains (iobind (receive dev) (fun data => iobind (send dev (str "HEADER 0")) (fun _ => ret data)))
  (fun data => [Read data; Cmd "HEADER 0"]).
Proof.
  intros w res w' I E. unfold iobind in E. destruct (receive dev w) as [[data|e] w1] eqn:X; destruct (read_step _ _ _ I X) as [I1 L1].
  - destruct (send dev (str "HEADER 0") w1) as [rs w2] eqn:Y. destruct (send_step dev user r "HEADER 0" _ _ _ I1 Y) as (I2 & evs & L2 & DB).
    destruct rs as [u|e]; injection E as <- <-; (split; [exact I2|]); exists data, ([ReadRaw r data] ++ evs); (split; [rewrite L2, L1, app_assoc; reflexivity|]); split.
    + apply co_step; [reflexivity|]. rewrite <- (app_nil_r evs). apply co_step; [exact DB|constructor].
    + intros x E. injection E as <-. reflexivity.
    + apply co_step; [reflexivity|]. apply co_failed. exact DB.
    + discriminate.
  - injection E as <- <-. split; [exact I1|]. exists [], [ReadFailed r e]. split; [exact L1|]. split; [apply co_failed; reflexivity|discriminate].
Qed.
End Performs.

(** Whatever the instrument does: these commands are sent in this order up to
    the first failure; after the data came in, headers are switched off again
    before the reply is decoded, also if it cannot be decoded. *)
Theorem C60_conversation : forall D (dev : device D) A (NA : Num A) to_float uniform utf8 user r f name raw add_noise w res w',
  w_inst w = Some r -> read_waveform dev to_float uniform utf8 f (str name) raw add_noise w = (res, w') ->
  exists data evs fetched, w_log w' = w_log w ++ evs /\ carried_out user r (transfer_steps f name data) fetched evs /\
    res = match fetched with Ok _ => parse_waveform_query to_float uniform utf8 data raw add_noise | Err e => Err e end.
Proof.
  intros D dev A NA to_float uniform utf8 user r f name raw add_noise w res w' I E. unfold read_waveform, iobind, lift in E.
  assert (O : obtains user r (fetch dev f (str name)) (transfer_steps f name)).
  { destruct f; cbn [fetch]; unfold fetch_4000, fetch_456, transfer_steps; cbn [app].
    - apply obtains_then.
      { replace (set_active_4000 dev (str name) true) with (send dev (str ("SELECT:" ++ name ++ " 1")%string)); [exact (send_step dev user r _)|].
        unfold set_active_4000, set_switch, active_4000. rewrite !str_app, <- app_assoc. reflexivity. }
      apply obtains_then.
      { replace (str "DATA:SOURCE " ++ str name) with (str ("DATA:SOURCE " ++ name)%string) by apply str_app. exact (send_step dev user r _). }
      do 6 (apply obtains_then; [exact (send_step dev user r _)|]). apply obtains_data.
    - apply obtains_then.
      { replace (set_active_456 dev (str name) true) with (send dev (str ("DISPLAY:GLOBAL:" ++ name ++ ":STATE 1")%string)); [exact (send_step dev user r _)|].
        unfold set_active_456, set_switch, active_456. rewrite !str_app, <- !app_assoc. reflexivity. }
      apply obtains_then.
      { replace (str "DATA:SOURCE " ++ str name) with (str ("DATA:SOURCE " ++ name)%string) by apply str_app. exact (send_step dev user r _). }
      do 6 (apply obtains_then; [exact (send_step dev user r _)|]). apply obtains_then; [exact (pause_step user r)|]. apply obtains_data. }
  destruct (fetch dev f (str name) w) as [[data|e] w1] eqn:F; destruct (O _ _ _ I F) as (_ & dt & evs & L & C & G).
  - injection E as <- <-. exists dt, evs, (Ok tt). split; [exact L|]. split; [exact C|]. rewrite (G _ eq_refl). reflexivity.
  - injection E as <- <-. exists dt, evs, (Err e). split; [exact L|]. split; [exact C|]. reflexivity.
Qed.
Print Assumptions C60_conversation.

(** ** On an instrument that sends its waveforms *)
Section Sends.
Context {D A : Type} {NA : Num A} {to_float : pystr -> result A} {utf8 : list Z -> option pystr} {dev : device D} {f : family}
  {reg : D -> pystr -> pystr} {record : D -> pystr -> preamble A * list Z}.
Hypothesis S : sends_waveforms to_float utf8 dev f reg record.
Definition chain {X} (l : list (pystr * pystr)) (k : io D X) : io D X :=
  fold_right (fun kv m => iobind (send dev (fst kv ++ str " " ++ snd kv)) (fun _ => m)) k l.
Lemma chain_ok {X} name n l (k : io D X) : settings_ok l -> NoDup (map fst l) -> incl (map fst l) (str "HEADER" :: map fst (transfer f name)) ->
  forall w, w_inst w = Some n -> exists w', chain l k w = k w' /\ w_inst w' = Some n /\
    (forall x v, In (x, v) l -> reg (w_dev w') x = v) /\ (forall x, ~ In x (map fst l) -> reg (w_dev w') x = reg (w_dev w) x) /\
    (forall c, record (w_dev w') c = record (w_dev w) c).
Proof.
  induction l as [|[x v] l IH]; intros SO ND IC w I.
  - exists w. split; [reflexivity|]. split; [exact I|]. split; [intros ? ? []|]. split; reflexivity.
  - inversion SO as [|? ? [Pk Pv] SO']; subst. inversion ND as [|? ? NI ND']; subst. cbn [fst snd] in * .
    destruct (stores_write _ _ _ (sends_stores _ _ _ _ _ _ S) (w_dev w) x v Pk Pv) as (d1 & E1 & R1 & F1).
    pose proof (sends_keeps _ _ _ _ _ _ S (w_dev w) name x v d1 (IC x (or_introl eq_refl)) E1) as K1.
    set (w1 := World d1 (w_next w) (w_log w ++ [Wrote n (x ++ str " " ++ v)]) (w_inst w)).
    destruct (IH SO' ND' (fun y J => IC y (or_intror J)) w1 I) as (w2 & E2 & I2 & R2 & F2 & K2).
    exists w2. split.
    { cbn [chain fold_right]. unfold iobind at 1, send, iobind, get_inst, write_resource. rewrite I. cbn [fst snd]. rewrite E1.
      exact E2. }
    split; [exact I2|]. split; [|split].
    + intros y u [E|J]; [|apply R2; exact J]. injection E as <- <-. rewrite F2 by exact NI. exact R1.
    + cbn [map fst]. intros y N. rewrite F2 by (intro; apply N; right; assumption). apply F1. intros ->. apply N. left. reflexivity.
    + intro c. rewrite K2. apply K1.
Qed.
Lemma transfer_ok c : settings_ok (transfer f (alias c)) /\ NoDup (map fst (transfer f (alias c))) /\ ~ In (str "HEADER") (map fst (transfer f (alias c))).
Proof.
  assert (PA := plain_alias c). assert (WA := word_alias c).
  pose proof settable_str as P. pose proof proper_str as W.
  assert (PK : settable (active_setting f (alias c))).
  { split; [|destruct f; reflexivity]. destruct f; cbn [active_setting]; [apply plain_app; [apply plain_str; reflexivity|exact PA]|].
    apply plain_app; [apply plain_str; reflexivity|]. apply plain_app; [exact PA|apply plain_str; reflexivity]. }
  assert (NK : forall y, In y [str "HEADER"; str "DATA:SOURCE"; str "DATA:START"; str "DATA:STOP"; str "DATA:WIDTH"; str "DATA:ENCDG"] ->
    active_setting f (alias c) <> y).
  { intros y J E. destruct f; cbn [active_setting] in E; repeat (destruct J as [<-|J]; [discriminate E|]); exact J. }
  refine (conj _ (conj _ _)).
  - destruct f; repeat (constructor; [split; cbn [fst snd]; (exact PK || (apply P; reflexivity) || (left; exact WA) || (apply W; reflexivity))|]); constructor.
  - destruct f; cbn [transfer app map fst]; (constructor; [intro J; refine (NK _ _ eq_refl); cbn [In] in *; tauto|]);
      repeat (constructor; [cbn [In]; intro J; repeat (destruct J as [J|J]; [discriminate J|]); exact J|]); constructor.
  - destruct f; cbn [transfer app map fst In]; (intros [J|J]; [exact (NK (str "HEADER") (or_introl eq_refl) J)|]);
      repeat (destruct J as [J|J]; [discriminate J|]); exact J.
Qed.
End Sends.

(** The user gets the waveform the channel holds; headers are off afterwards
    and only the settings of the transfer have changed. *)
Theorem C60_waveform : forall D A (NA : Num A) to_float utf8 (dev : device D) f reg (record : D -> pystr -> preamble A * list Z) uniform c raw n w,
  sends_waveforms to_float utf8 dev f reg record -> w_inst w = Some n ->
  exists wave w', read_waveform dev to_float uniform utf8 f (alias c) raw false w = (Ok wave, w') /\
    result_of raw (fst (record (w_dev w) (alias c))) (snd (record (w_dev w) (alias c))) wave /\
    reg (w_dev w') (str "HEADER") = str "0" /\
    Forall (fun kv => reg (w_dev w') (fst kv) = snd kv) (transfer f (alias c)) /\
    (forall k, k <> str "HEADER" -> ~ In k (map fst (transfer f (alias c))) -> reg (w_dev w') k = reg (w_dev w) k) /\
    (forall c', record (w_dev w') c' = record (w_dev w) c') /\ w_inst w' = Some n.
Proof.
  intros D A NA to_float utf8 dev f reg record uniform c raw n w S I.
  destruct (transfer_ok S c) as (SO & ND & NH).
  set (l := transfer f (alias c) ++ [(str "HEADER", str "1")]).
  assert (PH : settable (str "HEADER")) by (apply settable_str; reflexivity).
  assert (W1 : forall b : bool, proper (str (if b then "1" else "0"))) by (intros []; apply proper_str; reflexivity).
  assert (SL : settings_ok l).
  { apply Forall_app. split; [exact SO|]. constructor; [|constructor]. split; [exact PH|exact (W1 true)]. }
  assert (NL : NoDup (map fst l)).
  { unfold l. rewrite map_app. cbn [map fst]. apply NoDup_rev in ND. rewrite <- (rev_involutive (map fst _ ++ _)). apply NoDup_rev.
    rewrite rev_app_distr. cbn [rev app]. constructor; [|exact ND]. intro J. apply NH. apply in_rev. exact J. }
  assert (IL : incl (map fst l) (str "HEADER" :: map fst (transfer f (alias c)))).
  { unfold l. rewrite map_app. intros y J. apply in_app_iff in J. destruct J as [J|[<-|[]]]; [right; exact J|left; reflexivity]. }
  set (tail := iobind (send dev (str "WAVFRM?")) (fun _ =>
    iobind (match f with F4000 => ret tt | F456 => sleep end) (fun _ =>
    iobind (receive dev) (fun data => iobind (send dev (str "HEADER 0")) (fun _ => ret data))))).
  assert (F : fetch dev f (alias c) w = @chain D dev _ l tail w).
  { unfold l, tail. destruct f; cbn [fetch transfer app chain fold_right fst snd active_setting].
    - unfold fetch_4000, set_active_4000, set_switch, active_4000. rewrite <- !app_assoc. reflexivity.
    - unfold fetch_456, set_active_456, set_switch, active_456. rewrite <- !app_assoc. reflexivity. }
  destruct (chain_ok S (alias c) n l tail SL NL IL w I) as (w1 & E1 & I1 & R1 & F1 & K1).
  destruct (sends_answer _ _ _ _ _ _ S (w_dev w1)) as (d2 & bytes & d3 & EW & ER & RG & RC & ANS).
  assert (WR : waveform_reply to_float utf8 (fst (record (w_dev w) (alias c))) (snd (record (w_dev w) (alias c))) bytes).
  { rewrite <- K1. apply ANS. apply Forall_forall. intros [k v] J. cbn [fst snd]. apply R1. unfold l. apply in_app_iff.
    destruct J as [J|J]; [right; left; exact J|left; exact J]. }
  destruct (stores_write _ _ _ (sends_stores _ _ _ _ _ _ S) d3 (str "HEADER") (str "0") PH (W1 false)) as (d4 & E4 & R4 & F4).
  pose proof (sends_keeps _ _ _ _ _ _ S d3 (alias c) (str "HEADER") (str "0") d4 (or_introl eq_refl) E4) as K4.
  change (str "HEADER" ++ str " " ++ str "0") with (str "HEADER 0") in E4.
  assert (T : exists log, tail w1 = (Ok bytes, World d4 (w_next w1) log (w_inst w1))).
  { unfold tail, send, receive, iobind, get_inst, write_resource, raw_resource, sleep, ret. rewrite I1, EW.
    destruct f; cbn [w_inst w_dev w_next w_log]; rewrite ?I1; cbn [w_inst w_dev w_next w_log]; rewrite ER; cbn [w_inst w_dev w_next w_log]; rewrite ?I1; cbn [w_inst w_dev w_next w_log]; rewrite E4; eexists; reflexivity. }
  destruct T as [log T].
  assert (PQ : exists wave, parse_waveform_query to_float uniform utf8 bytes raw false = Ok wave /\
    result_of raw (fst (record (w_dev w) (alias c))) (snd (record (w_dev w) (alias c))) wave).
  { destruct raw.
    - destruct (C27_raw A NA to_float uniform utf8 _ _ _ WR) as (x & v & EX & EV & Y & XX & CT & CB & M0 & M1 & U & _).
      destruct (C27_decode A NA to_float uniform utf8 _ _ _ WR) as (v' & EV' & _ & XL & XN & T' & B' & _). rewrite EV in EV'. injection EV' as <-.
      exists x. split; [exact EX|]. unfold result_of. rewrite XX, CT, CB. tauto.
    - destruct (C27_decode A NA to_float uniform utf8 _ _ _ WR) as (v & EV & Y & XL & XN & CT & CB & M0 & M1 & _ & _ & U & _).
      exists v. split; [exact EV|]. unfold result_of. tauto. }
  destruct PQ as (wave & EQ & RES).
  exists wave, (World d4 (w_next w1) log (w_inst w1)). split.
  { unfold read_waveform, iobind, lift. rewrite F, E1, T, EQ. reflexivity. }
  split; [exact RES|]. cbn [w_dev w_inst]. split; [exact R4|]. split; [|split; [|split; [|exact I1]]].
  - apply Forall_forall. intros [k v] J. cbn [fst snd].
    assert (k <> str "HEADER") by (intros ->; apply NH; exact (in_map fst _ _ J)).
    rewrite F4, RG by assumption. apply R1. unfold l. apply in_app_iff. left. exact J.
  - intros k N1 N2. rewrite F4, RG by assumption. apply F1. unfold l. rewrite map_app. intro J. apply in_app_iff in J.
    destruct J as [J|[J|[]]]; [exact (N2 J)|]. apply N1. symmetry. exact J.
  - intro c'. rewrite K4, RC. apply K1.
Qed.
Print Assumptions C60_waveform.

(** ** An instrument that meets the hypotheses *)
Definition sender : device ScopeProps.memory := Device (fun d _ => (Ok true, d)) (fun d => (Ok tt, d))
  (fun d c => if str_eqb c (str "WAVFRM?") then (Ok tt, d) else dev_write ScopeProps.toy d c)
  (dev_query ScopeProps.toy) (fun d => (Ok ex_bytes, d)).
Lemma not_wavfrm k v : str_eqb (k ++ str " " ++ v) (str "WAVFRM?") = false.
Proof.
  apply str_eqb_neq. intro E. assert (J : In 32 (str "WAVFRM?")) by (rewrite <- E; apply in_app_iff; right; left; reflexivity).
  vm_compute in J. repeat (destruct J as [J|J]; [discriminate J|]). exact J.
Qed.
Example C60_met : forall f, sends_waveforms ex_float (fun b => Some b) sender f ScopeProps.look (fun _ _ => (ex_pre, ex_codes)).
Proof.
  intro f. split.
  - destruct (ScopeProps.toy_stores f) as [W Q]. split; [|exact Q].
    intros d k v Pk Pv. destruct (W d k v Pk Pv) as (d' & E & H). exists d'. split; [|exact H].
    cbn [sender dev_write]. rewrite not_wavfrm. exact E.
  - reflexivity.
  - intros d. exists d, ex_bytes, d. split; [reflexivity|]. split; [reflexivity|]. split; [reflexivity|]. split; [reflexivity|].
    intros name _. exact C27_met.
Qed.

(** ** A failed transfer *)
(** Headers stay on if the data does not come in: until they are switched off,
    the numbers of the instrument cannot be read.  [true]: headers on. *)
Definition flaky : device bool := Device (fun d _ => (Ok true, d)) (fun d => (Ok tt, d))
  (fun d c => (Ok tt, if str_eqb c (str "HEADER 1") then true else if str_eqb c (str "HEADER 0") then false else d))
  (fun d c => (Ok (if d then str ":CH1:SCALE 1.0E-1" else str "1.0E-1"), d)) (fun d => (Err VisaIOError, d)).
Theorem C60_headers_left_on_refuted : forall A (NA : Num A) to_float uniform utf8 fl f raw add_noise log,
  let w := World false 1 log (Some 0%nat) in
  exists w' w'', read_waveform flaky (A := A) to_float uniform utf8 f (str "CH1") raw add_noise w = (Err VisaIOError, w') /\
    (exists q, fst (get_scale flaky fl (str "CH1") w) = Ok (fl q) /\ (q == 1 # 10)%Q) /\
    get_scale flaky fl (str "CH1") w' = (Err ValueError, w'').
Proof.
  intros. destruct f; eexists _, _; (split; [vm_compute; reflexivity|]); (split; [|vm_compute; reflexivity]); eexists; (split; [vm_compute; reflexivity|reflexivity]).
Qed.
Print Assumptions C60_headers_left_on_refuted.
