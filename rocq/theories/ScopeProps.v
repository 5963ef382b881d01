(** C33, C34: settings of the scope read back what was last assigned. *)
From Coq Require Import String ZArith Bool QArith Qabs Lia Morphisms List.
Import ListNotations.
From Verif Require Import Base PyStr PyStrProofs ScpiModel ScpiProofs IOModel EquipModel EquipProofs TekModel TekProofs
  ScopeModel ScopeSpec ScopeProofs ScopeTripProofs ScopeReadProofs ScopeHistProofs.
Local Open Scope Z_scope.
Local Open Scope list_scope.

(** ** A memory that stores settings, to show the theorems are not empty *)
Definition memory := list (pystr * pystr).
Fixpoint look (m : memory) (k : pystr) : pystr :=
  match m with
  | [] => str "0"
  | (k', v) :: m => if str_eqb k k' then v else look m k
  end.
Fixpoint cut (s : pystr) : pystr * pystr :=
  match s with
  | [] => ([], [])
  | c :: s => if c =? 32 then ([], s) else let '(a, b) := cut s in (c :: a, b)
  end.
(** Texts are reported in double quotes, some words in another spelling, each
    reply ends with a newline. *)
Definition report (k v : pystr) : pystr :=
  match v with
  | c :: t => if c =? 39 then 34 :: removelast t ++ [34]
              else if str_eqb v (str "EDGE") && str_eqb k (str "TRIGGER:A:TYPE") then str "EDG" else v
  | [] => []
  end.
Definition toy : device memory := Device (fun d _ => (Ok true, d)) (fun d => (Ok tt, d))
  (fun d c => (Ok tt, cut c :: d)) (fun d c => (Ok (report (removelast c) (look d (removelast c)) ++ [10]), d)) (fun d => (Ok [], d)).
Lemma cut_plain k v : plain k -> cut (k ++ str " " ++ v) = (k, v).
Proof.
  induction 1 as [|c k H _ IH]; [reflexivity|]. cbn [app cut]. replace (c =? 32) with false by (symmetry; apply Z.eqb_neq; lia).
  rewrite IH. reflexivity.
Qed.
Lemma strip_word v : word v -> strip (v ++ [10]) = v.
Proof.
  assert (forall v, word v -> lstrip v = v) as LS.
  { intros u W. destruct W as [|c u H _]; [reflexivity|]. apply lstrip_id. unfold is_space.
    repeat match goal with |- context [?a =? ?b] => replace (a =? b) with false by (symmetry; apply Z.eqb_neq; lia)
                         | |- context [?a <=? ?b] => destruct (Z.leb_spec a b) end; try reflexivity; lia. }
  intros W. unfold strip, rstrip. destruct W as [|c v H W]; [reflexivity|].
  assert (lstrip ((c :: v) ++ [10]) = (c :: v) ++ [10]) as ->.
  { pose proof (LS (c :: v) ltac:(constructor; assumption)) as E. cbn [app lstrip] in *. destruct (is_space c); [|reflexivity].
    exfalso. assert (length (lstrip v) <= length v)%nat as L.
    { clear. induction v as [|d v IH]; [reflexivity|]. cbn. destruct (is_space d); cbn; lia. }
    rewrite E in L. cbn in L. lia. }
  rewrite rev_app_distr. change (lstrip (rev [10] ++ rev (c :: v))) with (lstrip (rev (c :: v))).
  rewrite LS; [apply rev_involutive|]. apply Forall_rev. constructor; assumption.
Qed.
Lemma strip_text t : strip ((34 :: t ++ [34]) ++ [10]) = 34 :: t ++ [34].
Proof.
  unfold strip, rstrip. cbn [app]. rewrite lstrip_id by reflexivity. rewrite app_comm_cons, rev_app_distr.
  change (lstrip (rev [10] ++ rev (34 :: t ++ [34]))) with (lstrip (rev (34 :: t ++ [34]))).
  rewrite app_comm_cons, rev_app_distr. cbn [rev app]. rewrite lstrip_id by reflexivity.
  change (rev (34 :: rev t ++ [34])) with (rev (rev t ++ [34]) ++ [34]). rewrite rev_app_distr, rev_involutive. reflexivity.
Qed.
Lemma toy_stores f : stores toy (words f) look.
Proof.
  split.
  - intros d k v [K _] V. eexists. split; [reflexivity|]. rewrite (cut_plain k v K). cbn [look].
    rewrite str_eqb_refl. split; [reflexivity|]. intros k' N. destruct (str_eqb k' k) eqn:E; [|reflexivity].
    apply str_eqb_eq in E. contradiction.
  - intros d k [K _] V. eexists d, _. split; [reflexivity|]. split; [reflexivity|].
    assert (removelast (k ++ str "?") = k) as EK by (change (str "?") with [63]; rewrite removelast_app by discriminate; apply app_nil_r). rewrite EK.
    destruct V as [W|(t & E & _)].
    + right. split; [exact W|]. unfold report. destruct (look d k) as [|c v] eqn:E; [left; reflexivity|].
      pose proof W as W'. inversion W'; subst. replace (c =? 39) with false by (symmetry; apply Z.eqb_neq; lia).
      destruct (str_eqb (c :: v) (str "EDGE") && str_eqb k (str "TRIGGER:A:TYPE")) eqn:EE.
      * apply andb_true_iff in EE. destruct EE as [EE ET]. apply str_eqb_eq in EE. apply str_eqb_eq in ET. rewrite EE, ET.
        right. left. destruct f; cbn; tauto.
      * left. exact (strip_word (c :: v) W).
    + left. exists t. split; [exact E|]. unfold report. rewrite E. cbn [Z.eqb Pos.eqb].
      assert (removelast (t ++ [39]) = t) as ET by (rewrite removelast_app by discriminate; apply app_nil_r). rewrite ET. apply strip_text.
Qed.

(** ** C33, C34: histories *)
(** Whatever was assigned before, and whatever other properties are assigned
    after: every property reads back the value last assigned to it.  Numbers
    come back to seven significant digits, triggers as [trigger_back] says. *)
Theorem C34_reads_last_assigned :
  forall D (dev : device D) f reg n fl s before a after w,
  stores dev (words f) reg -> Proper (Qeq ==> Qeq) fl ->
  Forall (assignment_ok f s) (before ++ a :: after) -> w_inst w = Some n ->
  (forall b, In b after -> property_of b <> property_of a) ->
  exists w', assign_all dev f s (before ++ a :: after) w = (Ok tt, w') /\ gives dev fl f a w'.
Proof.
  intros D dev f reg n fl s before a after w ST FL OK I N.
  destruct (history_knows dev f reg ST n s before a after w OK I N) as (w' & E & K).
  exists w'. split; [exact E|]. apply Forall_app in OK. destruct OK as [_ OK]. inversion OK as [|? ? OA _]; subst.
  exact (gives_all dev f reg ST n fl FL s a w' OA K).
Qed.
Print Assumptions C34_reads_last_assigned.
Theorem C33_trigger_round_trip :
  forall D (dev : device D) f reg n fl s before t after w,
  stores dev (words f) reg -> Proper (Qeq ==> Qeq) fl -> Forall (assignment_ok f s) before -> Forall (assignment_ok f s) after ->
  trigger_ok f s t -> w_inst w = Some n -> (forall t', ~ In (ATrigger t') after) ->
  exists w' t' w'', assign_all dev f s (before ++ ATrigger t :: after) w = (Ok tt, w') /\
    match f with F4000 => get_trigger_4000 dev fl | F456 => get_trigger_456 dev fl end w' = (Ok (Some t'), w'') /\
    trigger_back f fl t t'.
Proof.
  intros D dev f reg n fl s before t after w ST FL OB OA OT I N.
  destruct (C34_reads_last_assigned D dev f reg n fl s before (ATrigger t) after w ST FL) as (w' & E & (x & w'' & G & t' & -> & B)).
  - apply Forall_app. split; [exact OB|]. constructor; [|exact OA]. split; [exact OT|]. destruct f; exact Logic.I.
  - exact I.
  - intros b J E. destruct b; try discriminate E. exact (N _ J).
  - exists w', t', w''. auto.
Qed.
Print Assumptions C33_trigger_round_trip.

(** Other settings are untouched: an assignment changes only its part of the
    instrument, so another channel, the time base or the trigger stay as they
    were. *)
Lemma startswith_app p q r : startswith (p ++ q) (p ++ q ++ r) = true.
Proof. rewrite app_assoc. generalize (p ++ q). intros l. induction l as [|c l IH]; [reflexivity|]. cbn. rewrite Z.eqb_refl. exact IH. Qed.
Lemma writes_subsystem f a k v : In (k, v) (writes f a) -> startswith (subsystem f a) k = true.
Proof.
  assert (forall c (x : string), startswith (alias c ++ str ":") (key_of (alias c) x) = true) as KO.
  { intros c x. exact (startswith_app (alias c) (str ":") (str x)). }
  destruct a as [c q u|c dc|c on|c t|c x|u|u|i|m|t]; cbn [writes subsystem].
  - intros [E|[]]. injection E as <- _. apply KO.
  - intros [E|[]]. injection E as <- _. apply KO.
  - intros [E|[]]. injection E as <- _. destruct f; cbn [active_key].
    + unfold active_4000. pose proof (startswith_app (str "SELECT:") (alias c) []) as S. rewrite app_nil_r in S. exact S.
    + unfold active_456. pose proof (startswith_app (str "DISPLAY:GLOBAL:") (alias c ++ str ":") (str "STATE")) as S.
      rewrite <- app_assoc in S. exact S.
  - intros [E|[]]. injection E as <- _. destruct f; apply KO.
  - intros [E|[]]. injection E as <- _. apply KO.
  - destruct f; cbn [manual_mode app]; intros I; repeat (destruct I as [E|I]; [injection E as <- _; reflexivity|]); destruct I.
  - destruct f; cbn [manual_mode app]; intros I; repeat (destruct I as [E|I]; [injection E as <- _; reflexivity|]); destruct I.
  - destruct f; cbn [manual_mode app]; intros I; repeat (destruct I as [E|I]; [injection E as <- _; reflexivity|]); destruct I.
  - intros [E|[]]. injection E as <- _. reflexivity.
  - intros I.
    destruct t as [src level slope dc h|src level timeout slope h|src level wi c pos h|]; cbn [trigger_writes] in I; [| | |destruct I];
      unfold levels, kind, widths in I; destruct f; try destruct (str_eqb src (str "LINE")); try destruct (str_eqb src (str "AUX")); try destruct wi;
      cbn [app] in I; repeat (destruct I as [E|I]; [injection E as <- _; reflexivity|]); destruct I.
Qed.
Theorem C34_only_own_settings :
  forall D (dev : device D) f reg n s a w, stores dev (words f) reg -> assignment_ok f s a -> w_inst w = Some n ->
  exists w', assign dev f s a w = (Ok tt, w') /\
    forall k, startswith (subsystem f a) k = false -> reg (w_dev w') k = reg (w_dev w) k.
Proof.
  intros D dev f reg n s a w ST OK I. destruct (assign_step dev f reg ST n s a w OK I) as (w' & E & _ & _ & F).
  exists w'. split; [exact E|]. intros k N. apply F. intros v J. apply writes_subsystem in J. congruence.
Qed.
Print Assumptions C34_only_own_settings.

(** Labels longer than 30 characters or with other than ASCII characters are
    cut to what fits, which reads back. *)
Definition kept (t : pystr) : pystr := firstn 30 (filter (fun c => (0 <=? c) && (c <? 128)) t).
Lemma in_first (l : pystr) k c : In c (firstn k l) -> In c l.
Proof. intros I. rewrite <- (firstn_skipn k l). apply in_or_app. left. exact I. Qed.
Lemma kept_ascii t : Forall (fun c => 0 <= c < 128) (kept t).
Proof.
  rewrite Forall_forall. intros c I. apply in_first, filter_In in I. destruct I as [_ I]. apply andb_true_iff in I.
  destruct I as [A B]. apply Z.leb_le in A. apply Z.ltb_lt in B. lia.
Qed.
Lemma kept_ok t : ~ In 34 t -> ~ In 39 t -> label_ok (kept t).
Proof.
  intros N1 N2. split; [apply firstn_le_length|]. pose proof (kept_ascii t) as A. rewrite Forall_forall in *.
  intros c I. split; [exact (A c I)|]. apply in_first, filter_In in I. destruct I as [I _]. split; intros ->; contradiction.
Qed.
Theorem C34_label_cut :
  forall D (dev : device D) f reg n fl s c t w, stores dev (words f) reg -> Proper (Qeq ==> Qeq) fl -> w_inst w = Some n ->
  match f, c with F456, Digital _ => False | _, _ => True end ->
  (~ In 34 t)%Z -> (~ In 39 t)%Z ->
  exists w', assign dev f s (ALabel c t) w = (Ok tt, w') /\ gives dev fl f (ALabel c (kept t)) w'.
Proof.
  intros D dev f reg n fl s c t w ST FL I DG N1 N2. pose proof (kept_ok t N1 N2) as LO.
  assert (assign dev f s (ALabel c t) = assign dev f s (ALabel c (kept t))) as ->.
  { cbn [assign]. unfold set_label_4000, set_label_456, set_text. rewrite (label_kept (kept t) LO). destruct f; reflexivity. }
  destruct (C34_reads_last_assigned D dev f reg n fl s [] (ALabel c (kept t)) [] w ST FL) as (w' & E & G).
  - constructor; [|constructor]. split; [exact LO|]. destruct f, c; exact DG.
  - exact I.
  - intros b [].
  - exists w'. split; [|exact G]. cbn [app assign_all] in E. unfold iobind in E.
    destruct (assign dev f s (ALabel c (kept t)) w) as [[[]|e] w1]; [|discriminate E]. exact E.
Qed.
Print Assumptions C34_label_cut.

(** Digits sent as an averaging count: 4000 series for both averaging modes,
    4/5/6 series for averages only. *)
Definition count_back (f : family) (m : sample_mode) (i : Z) : Z :=
  match f, m with
  | _, SAMPLE => 1 | _, AVERAGE => i | F4000, ENVELOPE => i | F456, ENVELOPE => 1
  end.
Lemma int_no_word f i r : ~ In (str_int i, r) (words f).
Proof.
  intros I. pose proof (numeric_str_int i) as N. destruct f; cbn [words words_4000 words_456 pairs map words_common fst snd] in I;
  repeat (destruct I as [I|I]; [injection I as I _; rewrite <- I in N; inversion N as [|? ? N1 N2]; subst; try lia; inversion N2; subst; lia|]); destruct I.
Qed.
Theorem C34_sample_count :
  forall D (dev : device D) f reg n s m i w, stores dev (words f) reg -> w_inst w = Some n ->
  exists w' w'', iobind (assign dev f s (ASampleMode m)) (fun _ => match f with F4000 => set_sample_mode_n_4000 dev i | F456 => set_sample_mode_n_456 dev i end) w = (Ok tt, w') /\
    match f with F4000 => get_sample_mode_n_4000 dev | F456 => get_sample_mode_n_456 dev end w' = (Ok (count_back f m i), w'').
Proof.
  intros D dev f reg n s m i w ST I.
  pose (l := (str "ACQUIRE:MODE", mode_text m) :: (str "ACQUIRE:NUMAVG", str_int i) :: match f with F4000 => [(str "ACQUIRE:NUMENV", str_int i)] | F456 => [] end).
  assert (settings_ok l) as SO.
  { unfold l. constructor; [split; [chars|left; destruct m; chars]|]. constructor; [split; [chars|left; apply word_str_int]|].
    destruct f; [|constructor]. constructor; [|constructor]. split; [chars|left; apply word_str_int]. }
  assert (NoDup (map fst l)) as ND.
  { unfold l. destruct f; cbn [map fst]; repeat constructor; cbn [In]; intros J; repeat (destruct J as [J|J]; [discriminate J|]); destruct J. }
  destruct (put_ok dev (words f) reg ST n l SO ND w I) as (w1 & E & I1 & R & _).
  assert (knows reg n l w1) as K by (split; [exact I1|exact R]).
  assert (assignment_ok f s (ASampleMode m)) as OK by (split; [exact Logic.I|destruct f; exact Logic.I]).
  assert (yields (get_sample_mode dev) w1 (eq (Some m))) as _ by
    (refine (gives_all dev f reg ST n (fun q => q) _ s (ASampleMode m) w1 OK _); [intros a b H; exact H|split; [exact I1|intros k v [J|[]]; apply R; left; exact J]]).
  assert (exists w2, get_sample_mode dev w1 = (Ok (Some m), w2) /\ knows reg n l w2) as (w2 & E2 & K2).
  { destruct (ask_word_at dev f reg ST n l _ (mode_text m) w1 K (or_introl eq_refl) ltac:(chars) eq_refl) as (r & w2 & E2 & K2 & J).
    { destruct m; chars. } { destruct m; intros J; cbn in J; repeat (destruct J as [J|J]; [discriminate J|]); destruct J. }
    exists w2. split; [|exact K2]. unfold get_sample_mode. change (str "ACQUIRE:MODE?") with (str "ACQUIRE:MODE" ++ str "?").
    unfold iobind. rewrite E2. destruct m, f; destruct J as [<-|[<-|[]]]; reflexivity. }
  assert (exists w3, get_int dev (str "ACQUIRE:NUMAVG") w2 = (Ok i, w3)) as (w3 & E3).
  { destruct (get_int_knows dev (words f) reg ST n l (str "ACQUIRE:NUMAVG") i w2 K2) as (w3 & E3 & _); [right; left; reflexivity|chars|reflexivity|apply int_no_word|].
    exists w3. exact E3. }
  assert (f = F4000 -> exists w3, get_int dev (str "ACQUIRE:NUMENV") w2 = (Ok i, w3)) as E4.
  { intros Ef. destruct (get_int_knows dev (words f) reg ST n l (str "ACQUIRE:NUMENV") i w2 K2) as (w4 & E4 & _); [|chars|reflexivity|apply int_no_word|].
    { unfold l. rewrite Ef. right. right. left. reflexivity. }
    exists w4. exact E4. }
  assert (exists w'', match f with F4000 => get_sample_mode_n_4000 dev | F456 => get_sample_mode_n_456 dev end w1 = (Ok (count_back f m i), w'')) as (w'' & EE).
  { clear - E2 E3 E4. destruct f; unfold get_sample_mode_n_4000, get_sample_mode_n_456, iobind; rewrite E2; destruct m; cbn [count_back];
    try (eexists; reflexivity); try (exists w3; exact E3). exact (E4 eq_refl). }
  exists w1, w''. split; [|exact EE]. rewrite <- E. clear. subst l.
  destruct f, m; cbn [assign]; (apply send_put; [reflexivity|intros ?]); first [apply send_put; [reflexivity|intros ?]; apply send_put1; reflexivity|apply send_put1; reflexivity].
Qed.
Print Assumptions C34_sample_count.

(** Reading the inversion of a channel is useless: it is True whatever was
    assigned. *)
Theorem C34_inverted_always_true :
  forall D (dev : device D) f reg n s c b w, stores dev (words f) reg -> w_inst w = Some n ->
  match f, c with F456, Digital _ => False | _, _ => True end ->
  exists w' w'', assign dev f s (AInverted c b) w = (Ok tt, w') /\ get_inverted dev (alias c) w' = (Ok true, w'').
Proof.
  intros D dev f reg n s c b w ST I DG. assert (assignment_ok f s (AInverted c b)) as OK by (split; [exact Logic.I|destruct f, c; exact DG]).
  destruct (history_knows dev f reg ST n s [] (AInverted c b) [] w) as (w1 & E & K); [constructor; [exact OK|constructor]|exact I|intros x []|].
  destruct (ask_word_at dev f reg ST n _ (key_of (alias c) "INVERT") (switch b) w1 K (or_introl eq_refl)
    (plain_key_of c "INVERT" ltac:(chars)) (channel_not_switch c _)) as (r & w2 & E2 & _ & J).
  { destruct b; chars. } { destruct b; intros J; cbn in J; repeat (destruct J as [J|J]; [discriminate J|]); destruct J. }
  exists w1, w2. split.
  - cbn [app assign_all] in E. unfold iobind in E. destruct (assign dev f s (AInverted c b) w) as [[[]|e] w3]; [|discriminate E]. exact E.
  - unfold get_inverted, iobind. rewrite E2. destruct b, f; destruct J as [<-|[]]; reflexivity.
Qed.
Print Assumptions C34_inverted_always_true.
Theorem C34_inverted_round_trip_refuted :
  exists w, ~ yields (iobind (assign toy F4000 (Scope [1] [] false) (AInverted (Analog 1) false)) (fun _ => get_inverted toy (alias (Analog 1)))) w (eq false).
Proof.
  exists (World [] 1 [] (Some 0%nat)). intros (x & w' & E & <-). vm_compute in E. discriminate E.
Qed.

(** ** C33: rejected triggers *)
(** A source the scope does not have is a ValueError; only the kind of trigger
    may have changed. *)
Theorem C33_unknown_source :
  forall D (dev : device D) f reg n s t e src w, stores dev (words f) reg -> w_inst w = Some n ->
  match t with
  | TriggerEdge x _ _ _ _ => e = true /\ src = x
  | TriggerEdgeTimeout x _ _ _ _ | TriggerPulseWidth x _ _ _ _ _ => e = false /\ src = x
  | TriggerOther => False
  end -> ~ source_ok f s e src ->
  exists w', assign dev f s (ATrigger t) w = (Err ValueError, w') /\
    forall k, k <> str "TRIGGER:A:TYPE" -> k <> str "TRIGGER:A:PULSE:CLASS" -> reg (w_dev w') k = reg (w_dev w) k.
Proof.
  intros D dev f reg n s t e src w ST I HS N.
  destruct (reject_source dev f reg ST n s t e src) with (w := w) as (x & w' & E & <- & F).
  - destruct t; cbn [source_of]; [destruct HS as [-> ->]; reflexivity..|destruct HS].
  - exact N.
  - exact I.
  - exists w'. split; [exact E|]. intros k N1 N2. apply F. intros [J|[J|[]]]; congruence.
Qed.
Print Assumptions C33_unknown_source.
(** Every unusable trigger raises, and changes no setting outside the trigger. *)
Theorem C33_unusable :
  forall D (dev : device D) f reg n s t w, stores dev (words f) reg -> w_inst w = Some n -> ~ trigger_ok f s t ->
  exists x w', assign dev f s (ATrigger t) w = (Err x, w') /\ In x [ValueError; KeyError; TypeError] /\
    forall k, startswith (str "TRIGGER:") k = false -> reg (w_dev w') k = reg (w_dev w) k.
Proof.
  intros D dev f reg n s t w ST I N. destruct (reject dev f reg ST n s t N w I) as (x & w' & E & B & F).
  exists x, w'. split; [exact E|]. split; [exact B|]. intros k S. apply F. unfold trig. congruence.
Qed.
Print Assumptions C33_unusable.
(** A rejected assignment is not atomic: a scope set to a pulse trigger is left
    with an edge trigger by an edge trigger it rejects. *)
Definition two_channels : scope := Scope [1; 2] [] false.
Definition rejected_edge : trigger := TriggerEdge (str "CH3") 0 (inl RISING) true 0.
Definition width_trigger : trigger := TriggerPulseWidth (str "CH1") (1 # 2) (Limits (1 # 1000) (3 # 1000)) (inl WITHININC) true (1 # 50).
Theorem C33_atomic_refuted :
  exists w : world memory, w_inst w = Some 0%nat /\ ~ trigger_ok F4000 two_channels rejected_edge /\
    ~ (exists e w', assign toy F4000 two_channels (ATrigger rejected_edge) w = (Err e, w') /\
        fst (get_trigger_4000 toy (fun q => q) w') = fst (get_trigger_4000 toy (fun q => q) w)).
Proof.
  exists (snd (assign toy F4000 two_channels (ATrigger width_trigger) (World [] 1 [] (Some 0%nat)))).
  split; [vm_compute; reflexivity|]. split.
  - intros [S _]. apply (sources_spec F4000 two_channels true) in S. vm_compute in S. discriminate S.
  - intros (e & w' & E & G). vm_compute in E. injection E as _ <-. vm_compute in G. discriminate G.
Qed.

(** A label with a quote or a semicolon is sent as it is, and can end the text
    and start another command. *)
Theorem C34_label_single_command_refuted :
  exists t, ascii t = t /\ (length t <= 30)%nat /\ forall D (dev : device D) w n, w_inst w = Some n ->
    exists ev, w_log (snd (assign dev F4000 two_channels (ALabel (Analog 1) t) w)) = w_log w ++ [ev] /\
      (ev = Wrote n (str "CH1:LABEL 'x';:CH1:SCALE 10;'") \/ exists e, ev = WriteFailed n (str "CH1:LABEL 'x';:CH1:SCALE 10;'") e).
Proof.
  exists (str "x';:CH1:SCALE 10;"). split; [reflexivity|]. split; [cbn; lia|]. intros D dev w n I.
  cbn [assign]. unfold set_label_4000, set_text, send, iobind, get_inst, write_resource. rewrite I.
  set (c := key_of _ _ ++ _). change c with (str "CH1:LABEL 'x';:CH1:SCALE 10;'"). clear c.
  destruct (dev_write dev (w_dev w) _) as [[[]|e] d]; (eexists; split; [reflexivity|]); [left; reflexivity|right; exists e; reflexivity].
Qed.

(** ** Instances *)
Lemma id_proper : Proper (Qeq ==> Qeq) (fun q : Q => q). Proof. intros a b H. exact H. Qed.
Definition some_assignments : list assignment :=
  [ATrigger rejected_edge; AQuantity (Analog 1) VScale (1 # 5); ALabel (Analog 2) (str "clk"); ATrigger width_trigger; ATimeOffset (-3 # 7)].
Lemma width_trigger_ok : trigger_ok F456 two_channels width_trigger.
Proof. split; [left; exists 1; split; [left; reflexivity|reflexivity]|]. exists WITHININC. split; [reflexivity|exact I]. Qed.
Example C33_instance : exists w', assign_all toy F456 two_channels (tl some_assignments) (World [] 1 [] (Some 0%nat)) = (Ok tt, w') /\
  gives toy (fun q => q) F456 (ATrigger width_trigger) w' /\ gives toy (fun q => q) F456 (ALabel (Analog 2) (str "clk")) w'.
Proof.
  assert (Forall (assignment_ok F456 two_channels) (tl some_assignments)) as OK.
  { constructor; [split; exact I|]. constructor; [split; [split; [cbn; lia|chars]|exact I]|].
    constructor; [split; [exact width_trigger_ok|exact I]|]. constructor; [split; exact I|constructor]. }
  destruct (C34_reads_last_assigned _ toy F456 look 0%nat (fun q => q) two_channels [AQuantity (Analog 1) VScale (1 # 5); ALabel (Analog 2) (str "clk")]
    (ATrigger width_trigger) [ATimeOffset (-3 # 7)] (World [] 1 [] (Some 0%nat)) (toy_stores F456) id_proper OK eq_refl) as (w1 & E1 & G1).
  { intros b [<-|[]]. discriminate. }
  destruct (C34_reads_last_assigned _ toy F456 look 0%nat (fun q => q) two_channels [AQuantity (Analog 1) VScale (1 # 5)]
    (ALabel (Analog 2) (str "clk")) [ATrigger width_trigger; ATimeOffset (-3 # 7)] (World [] 1 [] (Some 0%nat)) (toy_stores F456) id_proper OK eq_refl) as (w2 & E2 & G2).
  { intros b [<-|[<-|[]]]; discriminate. }
  exists w1. split; [exact E1|]. split; [exact G1|]. cbn [app] in *.
  assert (w1 = w2) as -> by (apply (f_equal snd) in E1; apply (f_equal snd) in E2; cbn [snd] in *; rewrite <- E1; exact E2). exact G2.
Qed.
(** What is actually read: the trigger type by its short name. *)
Example C33_read : fst (get_trigger_4000 toy (fun q => q)
    (snd (assign toy F4000 two_channels (ATrigger (TriggerEdge (str "CH2") (3 # 10) (inl BOTH) false 0)) (World [] 1 [] (Some 0%nat))))) =
  Ok (Some (TriggerEdge (str "CH2") (3000000 # 10000000) (inl BOTH) false (0 # 1000000))).
Proof. vm_compute. reflexivity. Qed.
