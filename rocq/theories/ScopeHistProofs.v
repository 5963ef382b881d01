(** Histories of assignments, and rejected triggers. *)
From Coq Require Import String ZArith Bool QArith Qabs Lia Morphisms List.
Import ListNotations.
From Verif Require Import Base PyStr PyStrProofs ScpiModel ScpiProofs IOModel EquipModel EquipProofs TekModel TekProofs
  ScopeModel ScopeSpec ScopeProofs ScopeTripProofs ScopeReadProofs.
Local Open Scope Z_scope.
Local Open Scope list_scope.

Section History.
Context {D : Type}.
Variable dev : device D.
Variable f : family.
Variable reg : D -> pystr -> pystr.
Hypothesis ST : stores dev (words f) reg.
Variable n : nat.
Variable s : scope.

Lemma in_keys (l : list (pystr * pystr)) k : In k (map fst l) -> exists v, In (k, v) l.
Proof. intros I. apply in_map_iff in I. destruct I as ([k' v] & <- & I). exists v. exact I. Qed.
Lemma assign_step a w : assignment_ok f s a -> w_inst w = Some n -> exists w', assign dev f s a w = (Ok tt, w') /\ w_inst w' = Some n /\
  (forall k v, In (k, v) (writes f a) -> reg (w_dev w') k = v) /\
  (forall k, (forall v, ~ In (k, v) (writes f a)) -> reg (w_dev w') k = reg (w_dev w) k).
Proof.
  intros OK I. destruct (put_ok dev (words f) reg ST n (writes f a) (writes_settings f s a OK) (nodup_writes f a) w I) as (w' & E & I' & R & F).
  exists w'. rewrite (assign_put dev f s a w OK). split; [exact E|]. split; [exact I'|]. split; [exact R|].
  intros k N. apply F. intros J. apply in_keys in J. destruct J as [v J]. exact (N v J).
Qed.
Lemma assign_keeps a b w : assignment_ok f s b -> property_of a <> property_of b -> knows reg n (depends f a) w ->
  exists w', assign dev f s b w = (Ok tt, w') /\ knows reg n (depends f a) w'.
Proof.
  intros OK N [I K]. destruct (assign_step b w OK I) as (w' & E & I' & _ & F). exists w'. split; [exact E|]. split; [exact I'|].
  intros k v J. etransitivity; [apply F|exact (K k v J)]. intros v' J'. exact (disjoint_keys f a b k v v' N J J').
Qed.
Lemma assigns_keep a l : Forall (assignment_ok f s) l -> (forall b, In b l -> property_of b <> property_of a) ->
  forall w, knows reg n (depends f a) w -> exists w', assign_all dev f s l w = (Ok tt, w') /\ knows reg n (depends f a) w'.
Proof.
  induction 1 as [|b l OK _ IH]; intros N w K; [exists w; auto|].
  destruct (assign_keeps a b w OK) as (w1 & E1 & K1); [|exact K|]; [intros E; apply (N b (or_introl eq_refl)); congruence|].
  destruct (IH (fun b I => N b (or_intror I)) w1 K1) as (w2 & E2 & K2).
  exists w2. split; [|exact K2]. cbn [assign_all]. unfold iobind. rewrite E1. exact E2.
Qed.
Lemma assigns_ok l : Forall (assignment_ok f s) l -> forall w, w_inst w = Some n -> exists w', assign_all dev f s l w = (Ok tt, w') /\ w_inst w' = Some n.
Proof.
  induction 1 as [|b l OK _ IH]; intros w I; [exists w; auto|].
  destruct (assign_step b w OK I) as (w1 & E1 & I1 & _). destruct (IH w1 I1) as (w2 & E2 & I2).
  exists w2. split; [|exact I2]. cbn [assign_all]. unfold iobind. rewrite E1. exact E2.
Qed.
Lemma assign_all_app l l' w : assign_all dev f s (l ++ l') w = iobind (assign_all dev f s l) (fun _ => assign_all dev f s l') w.
Proof.
  revert w. induction l as [|a l IH]; intros w; [reflexivity|]. cbn [app assign_all]. rewrite bind_assoc.
  unfold iobind at 1 2. destruct (assign dev f s a w) as [[?|?] w1]; [apply IH|reflexivity].
Qed.
Lemma history_knows before a after w : Forall (assignment_ok f s) (before ++ a :: after) -> w_inst w = Some n ->
  (forall b, In b after -> property_of b <> property_of a) ->
  exists w', assign_all dev f s (before ++ a :: after) w = (Ok tt, w') /\ knows reg n (depends f a) w'.
Proof.
  intros FO I N. apply Forall_app in FO. destruct FO as [FB FA]. inversion FA as [|? ? OK FA']; subst.
  destruct (assigns_ok before FB w I) as (w1 & E1 & I1).
  destruct (assign_step a w1 OK I1) as (w2 & E2 & I2 & R2 & _).
  destruct (assigns_keep a after FA' N w2) as (w3 & E3 & K3).
  { split; [exact I2|]. intros k v J. apply R2, depends_writes, J. }
  exists w3. split; [|exact K3]. rewrite assign_all_app. cbn [assign_all]. unfold iobind. rewrite E1, E2. exact E3.
Qed.

(** ** Rejected triggers *)
Definition only (P : pystr -> Prop) (e : exn -> Prop) (m : io D unit) : Prop := forall w, w_inst w = Some n ->
  exists r w', m w = (r, w') /\ w_inst w' = Some n /\ (forall x, r = Err x -> e x) /\ (forall k, ~ P k -> reg (w_dev w') k = reg (w_dev w) k).
Definition fails (P : pystr -> Prop) (e : exn -> Prop) (m : io D unit) : Prop := forall w, w_inst w = Some n ->
  exists x w', m w = (Err x, w') /\ e x /\ (forall k, ~ P k -> reg (w_dev w') k = reg (w_dev w) k).
Lemma only_bind P e m g : only P e m -> only P e (g tt) -> only P e (iobind m g).
Proof.
  intros M G w I. destruct (M w I) as (r & w1 & E1 & I1 & X1 & F1). unfold iobind. rewrite E1. destruct r as [[]|x].
  - destruct (G w1 I1) as (r2 & w2 & E2 & I2 & X2 & F2). exists r2, w2. split; [exact E2|]. split; [exact I2|]. split; [exact X2|].
    intros k N. rewrite (F2 k N). apply F1, N.
  - exists (Err x), w1. split; [reflexivity|]. split; [exact I1|]. split; [intros y E; injection E as <-; apply X1; reflexivity|exact F1].
Qed.
(** A failing step fails the whole, and one that may fail leaves it to the rest. *)
Lemma fails_here P e m g : fails P e m -> fails P e (iobind m g).
Proof. intros M w I. destruct (M w I) as (x & w1 & E1 & X1 & F1). exists x, w1. unfold iobind. rewrite E1. auto. Qed.
Lemma fails_later P e m g : only P e m -> fails P e (g tt) -> fails P e (iobind m g).
Proof.
  intros M G w I. destruct (M w I) as (r & w1 & E1 & I1 & X1 & F1). unfold iobind. rewrite E1. destruct r as [[]|x].
  - destruct (G w1 I1) as (x & w2 & E2 & X2 & F2). exists x, w2. split; [exact E2|]. split; [exact X2|].
    intros k N. rewrite (F2 k N). apply F1, N.
  - exists x, w1. split; [reflexivity|]. split; [apply X1; reflexivity|exact F1].
Qed.
Lemma fails_raise (P : pystr -> Prop) (e : exn -> Prop) x : e x -> fails P e (raise x).
Proof. intros X w _. exists x, w. auto. Qed.
Lemma only_ret P e : only P e (ret tt).
Proof. intros w I. exists (Ok tt), w. split; [reflexivity|]. split; [exact I|]. split; [discriminate|reflexivity]. Qed.
Lemma only_raise (P : pystr -> Prop) (e : exn -> Prop) x : e x -> only P e (raise x).
Proof. intros X w I. exists (Err x), w. split; [reflexivity|]. split; [exact I|]. split; [intros y E; injection E as <-; exact X|reflexivity]. Qed.
Lemma only_send (P : pystr -> Prop) e c k v : c = k ++ str " " ++ v -> P k -> settable k -> proper v -> only P e (send dev c).
Proof.
  intros -> PK K V w I. destruct (send_ok dev (words f) reg ST n k v w K V I) as (w' & E & I' & R & F).
  exists (Ok tt), w'. split; [exact E|]. split; [exact I'|]. split; [discriminate|]. intros k' N. apply F. intros ->. exact (N PK).
Qed.
Lemma only_word (P : pystr -> Prop) (e : exn -> Prop) key r : P (str key) -> settable (str key) -> (forall v, r = Ok v -> word v) -> (forall x, r = Err x -> e x) ->
  only P e (send_word dev key r).
Proof.
  intros PK K W X. destruct r as [v|x].
  - intros w I. destruct (only_send P e _ (str key) v eq_refl PK K (or_introl (W v eq_refl)) w I) as (r & w' & E & H).
    exists r, w'. split; [exact E|exact H].
  - intros w I. exists (Err x), w. split; [reflexivity|]. split; [exact I|]. split; [intros y E; injection E as <-; apply X; reflexivity|reflexivity].
Qed.
Lemma fails_word (P : pystr -> Prop) (e : exn -> Prop) key x : e x -> fails P e (send_word dev key (Err x)).
Proof. intros X w I. exists x, w. split; [reflexivity|]. split; [exact X|reflexivity]. Qed.

Definition trig (k : pystr) : Prop := startswith (str "TRIGGER:") k = true.
Definition bad (x : exn) : Prop := In x [ValueError; KeyError; TypeError].
Definition is_type (k : pystr) : Prop := In k [str "TRIGGER:A:TYPE"; str "TRIGGER:A:PULSE:CLASS"].
Definition sources (e : bool) : list pystr :=
  match f with F4000 => sources_4000 s | F456 => if e then str "LINE" :: str "AUX" :: analog s else analog s end.
Lemma sources_spec e src : mem src (sources e) = true <-> source_ok f s e src.
Proof.
  clear ST. split.
  - intros M. apply mem_spec in M. unfold sources in M. unfold source_ok. destruct f.
    + destruct M as [<-|M]; [right; left; reflexivity|]. apply in_app_or in M. destruct M as [M|M].
      { apply mem_spec, analog_spec in M. left. exact M. }
      right. apply in_app_or in M. destruct M as [M|M].
      { right. left. unfold digital in M. apply in_map_iff in M. destruct M as (i & <- & M). exists i. auto. }
      destruct (aux s); [|destruct M]. destruct M as [<-|[]]. auto.
    + destruct e.
      * destruct M as [<-|[<-|M]]; [auto|auto|]. left. apply analog_spec, mem_spec, M.
      * left. apply analog_spec, mem_spec, M.
  - intros S. apply mem_spec. unfold sources, source_ok in *. destruct S as [A|S].
    + apply analog_spec, mem_spec in A. destruct f; [|destruct e; [right; right|]; exact A].
      right. apply in_or_app. left. exact A.
    + destruct f.
      * destruct S as [->|[(i & I & ->)|[A ->]]]; [left; reflexivity| |]; right; apply in_or_app; right; apply in_or_app.
        -- left. apply in_map_iff. exists i. auto.
        -- right. rewrite A. left. reflexivity.
      * destruct S as [-> [->| ->]]; [left; reflexivity|right; left; reflexivity].
Qed.
Definition source_of (t : trigger) : option (bool * pystr) :=
  match t with
  | TriggerEdge src _ _ _ _ => Some (true, src)
  | TriggerEdgeTimeout src _ _ _ _ | TriggerPulseWidth src _ _ _ _ _ => Some (false, src)
  | TriggerOther => None
  end.
Lemma fails_check (P : pystr -> Prop) (e : exn -> Prop) src l : mem src l = false -> e ValueError -> fails P e (check_source src l).
Proof. intros M X. unfold check_source. rewrite M. apply fails_raise, X. Qed.
Ltac send_it := eapply (only_send _ _ _ (str _) (str _)); [reflexivity|reflexivity || (cbn; tauto)|chars|left; chars].
Lemma only_kind (P : pystr -> Prop) e c : (forall k, is_type k -> P k) -> In c ["EDGE"; "PULSE"; "TIMEOUT"; "WIDTH"]%string ->
  only P e (send dev (str "TRIGGER:A:TYPE " ++ str c)).
Proof.
  intros T I. eapply (only_send _ _ _ (str "TRIGGER:A:TYPE") (str c)); [reflexivity|apply T; left; reflexivity|chars|left].
  repeat (destruct I as [<-|I]; [chars|]). destruct I.
Qed.
Lemma only_class (P : pystr -> Prop) e c : (forall k, is_type k -> P k) -> In c ["TIMEOUT"; "WIDTH"]%string ->
  only P e (send dev (str "TRIGGER:A:PULSE:CLASS " ++ str c)).
Proof.
  intros T I. eapply (only_send _ _ _ (str "TRIGGER:A:PULSE:CLASS") (str c)); [reflexivity|apply T; right; left; reflexivity|chars|left].
  repeat (destruct I as [<-|I]; [chars|]). destruct I.
Qed.
Definition set_trigger (t : trigger) : io D unit := match f with F4000 => set_trigger_4000 dev s t | F456 => set_trigger_456 dev s t end.
Lemma reject_source t e src : source_of t = Some (e, src) -> ~ source_ok f s e src -> fails is_type (eq ValueError) (set_trigger t).
Proof.
  intros E N. assert (mem src (sources e) = false) as M.
  { destruct (mem src (sources e)) eqn:M; [|reflexivity]. apply sources_spec in M. contradiction. }
  assert (forall k, is_type k -> is_type k) as ID by auto.
  unfold set_trigger, sources in *. destruct t as [src' ? ? ? ?|src' ? ? ? ?|src' ? ? ? ? ?|]; try discriminate E; injection E as <- ->.
  - pose proof (only_kind is_type (eq ValueError) "EDGE" ID ltac:(cbn; tauto)) as K.
    destruct f; (apply fails_later; [exact K|apply fails_here, fails_check; [exact M|reflexivity]]).
  - pose proof (only_kind is_type (eq ValueError) "PULSE" ID ltac:(cbn; tauto)) as K.
    pose proof (only_class is_type (eq ValueError) "TIMEOUT" ID ltac:(cbn; tauto)) as K2.
    pose proof (only_kind is_type (eq ValueError) "TIMEOUT" ID ltac:(cbn; tauto)) as K3.
    destruct f.
    + apply fails_later; [exact K|]. apply fails_later; [exact K2|]. apply fails_here, fails_check; [exact M|reflexivity].
    + apply fails_later; [exact K3|]. apply fails_here, fails_check; [exact M|reflexivity].
  - pose proof (only_kind is_type (eq ValueError) "PULSE" ID ltac:(cbn; tauto)) as K.
    pose proof (only_class is_type (eq ValueError) "WIDTH" ID ltac:(cbn; tauto)) as K2.
    pose proof (only_kind is_type (eq ValueError) "WIDTH" ID ltac:(cbn; tauto)) as K3.
    destruct f.
    + apply fails_later; [exact K|]. apply fails_later; [exact K2|]. apply fails_here, fails_check; [exact M|reflexivity].
    + apply fails_later; [exact K3|]. apply fails_here, fails_check; [exact M|reflexivity].
Qed.

Lemma fails_weaken (P P' : pystr -> Prop) (e e' : exn -> Prop) m : (forall k, P k -> P' k) -> (forall x, e x -> e' x) -> fails P e m -> fails P' e' m.
Proof. intros HP He M w I. destruct (M w I) as (x & w' & E & X & F). exists x, w'. split; [exact E|]. split; [auto|]. intros k N. apply F. auto. Qed.
Lemma type_trig k : is_type k -> trig k.
Proof. intros [<-|[<-|[]]]; reflexivity. Qed.
Lemma only_check e src l : mem src l = true -> only trig e (check_source src l).
Proof. intros M. unfold check_source. rewrite M. apply only_ret. Qed.
Lemma only_float e k x : trig k -> settable k -> only trig e (set_float dev k x).
Proof. intros T K. unfold set_float. eapply only_send; [reflexivity|exact T|exact K|left; apply word_sci]. Qed.
Lemma only_source e key src : trig (str key) -> settable (str key) -> word src -> only trig e (send dev ((str key ++ str " ") ++ src)).
Proof. intros T K W. eapply (only_send _ _ _ (str key) src); [rewrite app_assoc; reflexivity|exact T|exact K|left; exact W]. Qed.
Lemma only_bad key r : trig (str key) -> settable (str key) -> (forall v, r = Ok v -> word v) -> (forall x, r = Err x -> bad x) -> only trig bad (send_word dev key r).
Proof. apply only_word. Qed.
Lemma edge_bad p x : edge_word p = Err x -> bad x.
Proof. destruct p as [[]|]; try discriminate. intros E. injection E as <-. right. left. reflexivity. Qed.
Lemma stays_bad p x : stays_word p = Err x -> bad x.
Proof. destruct p as [[]|]; try discriminate. intros E. injection E as <-. right. left. reflexivity. Qed.
Lemma when_bad p x : when_word p = Err x -> bad x.
Proof. destruct p as [[]|]; try discriminate. intros E. injection E as <-. right. left. reflexivity. Qed.
Lemma width_only wi c : only trig bad (set_width dev wi c).
Proof.
  unfold set_width. destruct (ranged c), wi.
  - apply only_raise. left. reflexivity.
  - apply only_bind; apply only_float; reflexivity || chars.
  - apply only_float; reflexivity || chars.
  - apply only_raise. right. right. left. reflexivity.
Qed.
Lemma width_fails wi c : ~ width_ok wi c -> fails trig bad (set_width dev wi (inl c)).
Proof.
  intros N. unfold set_width. destruct c, wi; cbn [ranged]; try (destruct (N I));
    apply fails_raise; first [left; reflexivity|right; right; left; reflexivity].
Qed.
Lemma reject t : ~ trigger_ok f s t -> fails trig bad (set_trigger t).
Proof.
  intros N. destruct (source_of t) as [[e src]|] eqn:E.
  2: { destruct t; try discriminate E. unfold set_trigger. destruct f; apply fails_raise; left; reflexivity. }
  destruct (mem src (sources e)) eqn:M.
  2: { eapply fails_weaken; [exact type_trig| |apply (reject_source t e src E)].
       - intros x <-. left. reflexivity.
       - intros S. apply sources_spec in S. congruence. }
  pose proof M as S. apply sources_spec in S. destruct (word_source f s e src S) as [W PS]. apply plain_level in PS.
  assert (forall l, only trig bad (set_float dev (level_key src) l)) as OL by (intros l; apply only_float; [reflexivity|exact PS]).
  assert (forall l, only trig bad (set_float dev (str "TRIGGER:AUXLEVEL") l)) as OX by (intros l; apply only_float; [reflexivity|chars]).
  pose proof (only_check bad src (sources e) M) as OC.
  pose proof (fun c => only_kind trig bad c type_trig) as OK1. pose proof (fun c => only_class trig bad c type_trig) as OK2.
  pose proof (fun key T K => only_source bad key src T K W) as OS. unfold set_trigger, sources in * .
  destruct t as [src' level slope dc h|src' level timeout slope h|src' level wi c pos h|]; try discriminate E; injection E as <- ->; cbn [trigger_ok] in N.
  - assert (edge_word slope = Err KeyError) as ES by (destruct slope as [p|]; [destruct N; eauto|reflexivity]).
    assert (fails trig bad (send_word dev "TRIGGER:A:EDGE:SLOPE" (edge_word slope))) as FW by (rewrite ES; apply fails_word; right; left; reflexivity).
    specialize (OK1 "EDGE"%string ltac:(cbn; tauto)). specialize (OS "TRIGGER:A:EDGE:SOURCE"%string eq_refl ltac:(chars)).
    destruct f.
    + do 4 (apply fails_later; [first [exact OK1|exact OC|exact OS|apply OL]|]). apply fails_here. exact FW.
    + apply fails_later; [exact OK1|]. apply fails_later; [exact OC|]. apply fails_later; [exact OS|].
      apply fails_later; [destruct (mem src (analog s)); [apply OL|]; destruct (str_eqb src (str "AUX")); [apply OX|apply only_ret]|].
      apply fails_here. exact FW.
  - assert (stays_word slope = Err KeyError) as ES by (destruct slope as [p|]; [destruct N; eauto|reflexivity]).
    assert (fails trig bad (send_word dev "TRIGGER:A:TIMEOUT:POLARITY" (stays_word slope))) as FW by (rewrite ES; apply fails_word; right; left; reflexivity).
    pose proof (OK1 "PULSE"%string ltac:(cbn; tauto)) as K1. pose proof (OK1 "TIMEOUT"%string ltac:(cbn; tauto)) as K2.
    specialize (OK2 "TIMEOUT"%string ltac:(cbn; tauto)). specialize (OS "TRIGGER:A:TIMEOUT:SOURCE"%string eq_refl ltac:(chars)).
    assert (only trig bad (set_float dev (str "TRIGGER:A:TIMEOUT:TIME") timeout)) as OT by (apply only_float; [reflexivity|chars]).
    destruct f.
    + do 6 (apply fails_later; [first [exact K1|exact OK2|exact OC|exact OS|apply OL|exact OT]|]). apply fails_here. exact FW.
    + do 5 (apply fails_later; [first [exact K2|exact OC|exact OS|apply OL|exact OT]|]). apply fails_here. exact FW.
  - pose proof (OK1 "PULSE"%string ltac:(cbn; tauto)) as K1. pose proof (OK1 "WIDTH"%string ltac:(cbn; tauto)) as K2.
    specialize (OK2 "WIDTH"%string ltac:(cbn; tauto)). specialize (OS "TRIGGER:A:PULSEWIDTH:SOURCE"%string eq_refl ltac:(chars)).
    pose proof (width_only wi c) as OW.
    assert (fails trig bad (iobind (set_width dev wi c) (fun _ => iobind (send_word dev "TRIGGER:A:PULSEWIDTH:WHEN" (when_word c)) (fun _ =>
       iobind (send dev (str "TRIGGER:A:PULSEWIDTH:POLARITY " ++ (if pos then str "POSITIVE" else str "NEGATIVE"))) (fun _ =>
       set_float dev (str "TRIGGER:A:HOLDOFF:TIME") h))))) as FW.
    { destruct c as [c|c].
      - apply fails_here, width_fails. intros WO. apply N. split; [exact S|]. exists c. auto.
      - apply fails_later; [exact OW|]. apply fails_here, fails_word. right. left. reflexivity. }
    destruct f.
    + do 5 (apply fails_later; [first [exact K1|exact OK2|exact OC|exact OS|apply OL]|]). exact FW.
    + do 4 (apply fails_later; [first [exact K2|exact OC|exact OS|apply OL]|]). exact FW.
Qed.
End History.
