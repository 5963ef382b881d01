(** Every property reads back what was last assigned to it. *)
From Coq Require Import String ZArith Bool QArith Qabs Lia Morphisms List.
Import ListNotations.
From Verif Require Import Base PyStr PyStrProofs ScpiModel ScpiProofs IOModel EquipModel EquipProofs TekModel TekProofs
  ScopeModel ScopeSpec ScopeProofs.
Local Open Scope Z_scope.
Local Open Scope list_scope.

Definition suffix (q : quantity) : string :=
  match q with
  | Position => "POSITION" | VScale => "SCALE" | Bandwidth => "BANDWIDTH" | Deskew => "DESKEW" | Offset => "OFFSET"
  | Termination => "TERMINATION" | ProbeGain => "PROBE:GAIN" | Threshold => "THRESHOLD"
  end.
Definition key (k : string) (v : pystr) : pystr * pystr := (str k, v).
Definition active_key (f : family) (c : channel) : pystr :=
  match f with F4000 => active_4000 (alias c) | F456 => active_456 (alias c) end.
Definition label_key (f : family) (c : channel) : pystr :=
  match f with F4000 => key_of (alias c) "LABEL" | F456 => key_of (alias c) "LABEL:NAME" end.
Definition manual_mode (f : family) : list (pystr * pystr) :=
  match f with F4000 => [] | F456 => [key "HORIZONTAL:MODE" (str "MANUAL")] end.
Definition edge_text (p : polarity) : pystr := match p with RISING => str "RISE" | FALLING => str "FALL" | BOTH => str "EITHER" end.
Definition stays_text (p : polarity) : pystr := match p with RISING => str "STAYSHIGH" | FALLING => str "STAYSLOW" | BOTH => str "EITHER" end.
Definition when_text (c : comparison) : pystr :=
  match c with
  | LESS | LESSEQUAL => str "LESSTHAN" | MORE | MOREEQUAL => str "MORETHAN" | EQUAL => str "EQUAL" | UNEQUAL => str "UNEQUAL"
  | WITHIN | WITHININC => str "WITHIN" | OUTSIDE | OUTSIDEINC => str "OUTSIDE"
  end.
Definition widths (w : pulse_width) : list (pystr * pystr) :=
  match w with
  | Width w => [key "TRIGGER:A:PULSEWIDTH:WIDTH" (sci 6 w)]
  | Limits a b => [key "TRIGGER:A:PULSEWIDTH:LOWLIMIT" (sci 6 a); key "TRIGGER:A:PULSEWIDTH:HIGHLIMIT" (sci 6 b)]
  end.
Definition slope_of (s : polarity + pystr) : polarity := match s with inl p => p | inr _ => BOTH end.
Definition when_of (s : comparison + pystr) : comparison := match s with inl p => p | inr _ => EQUAL end.
Definition level_key (src : pystr) : pystr := str "TRIGGER:A:LEVEL:" ++ src.
Definition levels (f : family) (src : pystr) (level : Q) : list (pystr * pystr) :=
  match f with
  | F4000 => [(level_key src, sci 6 level)]
  | F456 => if str_eqb src (str "LINE") then []
            else if str_eqb src (str "AUX") then [key "TRIGGER:AUXLEVEL" (sci 6 level)]
            else [(level_key src, sci 6 level)]
  end.
Definition kind (f : family) (c : string) : list (pystr * pystr) :=
  match f with
  | F4000 => [key "TRIGGER:A:TYPE" (str "PULSE"); key "TRIGGER:A:PULSE:CLASS" (str c)]
  | F456 => [key "TRIGGER:A:TYPE" (str c)]
  end.
Definition trigger_writes (f : family) (t : trigger) : list (pystr * pystr) :=
  match t with
  | TriggerEdge src level slope dc holdoff =>
      [key "TRIGGER:A:TYPE" (str "EDGE"); key "TRIGGER:A:EDGE:SOURCE" src] ++ levels f src level ++
      [key "TRIGGER:A:EDGE:SLOPE" (edge_text (slope_of slope));
       key "TRIGGER:A:EDGE:COUPLING" (if dc then str "DC" else match f with F4000 => str "AC" | F456 => str "LFREJ" end);
       key "TRIGGER:A:HOLDOFF:TIME" (sci 6 holdoff)]
  | TriggerEdgeTimeout src level timeout slope holdoff =>
      kind f "TIMEOUT" ++ [key "TRIGGER:A:TIMEOUT:SOURCE" src; (level_key src, sci 6 level);
        key "TRIGGER:A:TIMEOUT:TIME" (sci 6 timeout); key "TRIGGER:A:TIMEOUT:POLARITY" (stays_text (slope_of slope));
        key "TRIGGER:A:HOLDOFF:TIME" (sci 6 holdoff)]
  | TriggerPulseWidth src level w c positive holdoff =>
      kind f "WIDTH" ++ [key "TRIGGER:A:PULSEWIDTH:SOURCE" src; (level_key src, sci 6 level)] ++ widths w ++
      [key "TRIGGER:A:PULSEWIDTH:WHEN" (when_text (when_of c));
       key "TRIGGER:A:PULSEWIDTH:POLARITY" (if positive then str "POSITIVE" else str "NEGATIVE");
       key "TRIGGER:A:HOLDOFF:TIME" (sci 6 holdoff)]
  | TriggerOther => []
  end.
Definition switch (on : bool) : pystr := if on then str "1" else str "0".
Definition mode_text (m : sample_mode) : pystr :=
  match m with SAMPLE => str "SAMPLE" | AVERAGE => str "AVERAGE" | ENVELOPE => str "ENVELOPE" end.
(** The settings made by an assignment, and those its property depends on. *)
Definition writes (f : family) (a : assignment) : list (pystr * pystr) :=
  match a with
  | AQuantity c q v => [(key_of (alias c) (suffix q), sci 6 v)]
  | ACoupling c dc => [(key_of (alias c) "COUPLING", if dc then str "DC" else str "AC")]
  | AActive c on => [(active_key f c, switch on)]
  | ALabel c t => [(label_key f c, 39 :: t ++ [39])]
  | AInverted c b => [(key_of (alias c) "INVERT", switch b)]
  | ATimeScale v => manual_mode f ++ [key "HORIZONTAL:SCALE" (sci 6 v)]
  | ATimeOffset v => manual_mode f ++ [key "HORIZONTAL:DELAY:MODE" (str "ON"); key "HORIZONTAL:DELAY:TIME" (sci 6 v)]
  | ATimePoints n => manual_mode f ++ [key "HORIZONTAL:RECORDLENGTH" (str_int n)]
  | ASampleMode m => [key "ACQUIRE:MODE" (mode_text m)]
  | ATrigger t => trigger_writes f t
  end.
Definition depends (f : family) (a : assignment) : list (pystr * pystr) :=
  match a with
  | ATimeScale v => [key "HORIZONTAL:SCALE" (sci 6 v)]
  | ATimeOffset v => [key "HORIZONTAL:DELAY:TIME" (sci 6 v)]
  | ATimePoints n => [key "HORIZONTAL:RECORDLENGTH" (str_int n)]
  | _ => writes f a
  end.
Lemma depends_writes f a kv : In kv (depends f a) -> In kv (writes f a).
Proof. destruct a; cbn [depends]; try (intros I; exact I); destruct f; cbn; tauto. Qed.

(** ** Different properties use different keys *)
Fixpoint first_part (k : pystr) : pystr :=
  match k with
  | [] => []
  | c :: k' => if c =? 58 then [] else c :: first_part k'
  end.
Lemma first_part_app a b : Forall (fun c => c <> 58) a -> first_part (a ++ 58 :: b) = a.
Proof.
  induction 1 as [|c a N _ IH]; [reflexivity|]. cbn. apply Z.eqb_neq in N. rewrite N, IH. reflexivity.
Qed.
Lemma alias_no_colon c : Forall (fun c => c <> 58) (alias c).
Proof.
  assert (forall i, Forall (fun c => c <> 58) (str_int i)) as NI.
  { intros i. eapply Forall_impl; [|exact (numeric_str_int i)]. cbv beta. intros; lia. }
  destruct c; apply Forall_app; (split; [chars|apply NI]).
Qed.
Lemma first_key c s : first_part (key_of (alias c) s) = alias c.
Proof. apply first_part_app, alias_no_colon. Qed.
Definition channel_of (p : property) : option channel :=
  match p with
  | PQuantity c _ | PCoupling c | PLabel c | PInverted c => Some c
  | _ => None
  end.
(** The first part of the keys of a property. *)
Definition part_of (f : family) (p : property) : pystr :=
  match p with
  | PQuantity c _ | PCoupling c | PLabel c | PInverted c => alias c
  | PActive _ => match f with F4000 => str "SELECT" | F456 => str "DISPLAY" end
  | PTimeScale | PTimeOffset | PTimePoints => str "HORIZONTAL"
  | PSampleMode => str "ACQUIRE"
  | PTrigger => str "TRIGGER"
  end.
Lemma trigger_parts f t k v : In (k, v) (trigger_writes f t) -> first_part k = str "TRIGGER".
Proof.
  assert (forall src, first_part (level_key src) = str "TRIGGER") as L by reflexivity.
  destruct t as [src level slope dc h|src level timeout slope h|src level w c pos h|]; cbn [trigger_writes]; intros I.
  - apply in_app_or in I. destruct I as [[E|[E|[]]]|I]; try (injection E as <- <-; reflexivity).
    apply in_app_or in I. destruct I as [I|[E|[E|[E|[]]]]]; try (injection E as <- <-; reflexivity).
    destruct f; cbn [levels] in I; [destruct I as [E|[]]; injection E as <- <-; apply L|].
    destruct (str_eqb src (str "LINE")); [destruct I|].
    destruct (str_eqb src (str "AUX")); destruct I as [E|[]]; injection E as <- <-; [reflexivity|apply L].
  - apply in_app_or in I. destruct I as [I|[E|[E|[E|[E|[E|[]]]]]]]; try (injection E as <- <-; reflexivity).
    destruct f; cbn [kind] in I; repeat (destruct I as [I|I]; [injection I as <- <-; reflexivity|]); destruct I.
  - apply in_app_or in I. destruct I as [I|I].
    { destruct f; cbn [kind] in I; repeat (destruct I as [I|I]; [injection I as <- <-; reflexivity|]); destruct I. }
    apply in_app_or in I. destruct I as [[E|[E|[]]]|I]; try (injection E as <- <-; reflexivity).
    apply in_app_or in I. destruct I as [I|[E|[E|[E|[]]]]]; try (injection E as <- <-; reflexivity).
    destruct w; cbn [widths] in I; repeat (destruct I as [I|I]; [injection I as <- <-; reflexivity|]); destruct I.
  - destruct I.
Qed.
Lemma writes_parts f a k v : In (k, v) (writes f a) -> first_part k = part_of f (property_of a).
Proof.
  destruct a; cbn [writes property_of part_of]; intros I.
  1,2,4,5: destruct I as [E|[]]; injection E as <- <-; try (destruct f); apply first_key.
  - destruct I as [E|[]]; injection E as <- <-; destruct f; reflexivity.
  - destruct f; cbn in I; repeat (destruct I as [I|I]; [injection I as <- <-; reflexivity|]); destruct I.
  - destruct f; cbn in I; repeat (destruct I as [I|I]; [injection I as <- <-; reflexivity|]); destruct I.
  - destruct f; cbn in I; repeat (destruct I as [I|I]; [injection I as <- <-; reflexivity|]); destruct I.
  - destruct I as [E|[]]; injection E as <- <-; reflexivity.
  - eapply trigger_parts; exact I.
Qed.
Lemma key_of_inj a s s' : key_of a s = key_of a s' -> str s = str s'.
Proof. unfold key_of. intros E. apply app_inv_head in E. congruence. Qed.
Lemma active_key_inj f c c' : active_key f c = active_key f c' -> c = c'.
Proof.
  intros E. apply alias_inj. destruct f; cbn [active_key] in E.
  - unfold active_4000 in E. apply app_inv_head in E. exact E.
  - unfold active_456 in E. apply app_inv_head in E. apply app_inv_tail in E. exact E.
Qed.
Lemma suffix_inj q q' : str (suffix q) = str (suffix q') -> q = q'.
Proof. destruct q, q'; cbn; intros E; try reflexivity; discriminate. Qed.

Lemma alias_part f c c' : alias c = part_of f (PActive c') -> False.
Proof.
  destruct c as [i|i], f; cbn [alias part_of]; intros E; try discriminate E.
  change (68 :: str_int i = 68 :: str "ISPLAY") in E. injection E as E. pose proof (numeric_str_int i) as N. rewrite E in N. inversion N; subst. lia.
Qed.
Lemma disjoint_keys f a b k v v' : property_of a <> property_of b -> In (k, v) (depends f a) -> ~ In (k, v') (writes f b).
Proof.
  intros N I J. pose proof (writes_parts f a k v (depends_writes f a _ I)) as P1.
  pose proof (writes_parts f b k v' J) as P2. rewrite P1 in P2. clear P1.
  destruct a as [c q v1|c dc|c on|c t|c x|v1|v1|n|m|t]; destruct b as [c' q' v2|c' dc'|c' on'|c' t'|c' x'|v2|v2|n'|m'|t'];
    cbn [property_of] in P2, N; try (apply N; reflexivity); try (destruct (alias_part _ _ _ P2)); try (destruct (alias_part _ _ _ (eq_sym P2)));
    cbn [part_of] in P2;
    try (exfalso; destruct c; destruct f; discriminate P2); try (exfalso; destruct c'; destruct f; discriminate P2);
    try (exfalso; destruct f; discriminate P2).
  all: try (apply alias_inj in P2; subst c'; try (destruct (N eq_refl)); cbn [depends writes] in I, J; destruct I as [I|[]], J as [J|[]];
            apply (f_equal fst) in I; apply (f_equal fst) in J; cbn [fst] in I, J; rewrite <- J in I; clear J;
            try (destruct f; cbn [label_key] in I); apply key_of_inj in I;
            try (destruct q); try (destruct q'); cbn in I, N; try discriminate I; apply N; reflexivity).
  1: { cbn [depends writes] in I, J. destruct I as [I|[]], J as [J|[]].
       apply (f_equal fst) in I. apply (f_equal fst) in J. cbn [fst] in I, J. rewrite <- J in I.
       apply active_key_inj in I. subst. apply N. reflexivity. }
  all: destruct f; cbn in I, J; repeat (destruct I as [I|I]); repeat (destruct J as [J|J]); try contradiction; injection I as <- _;
       discriminate J.
Qed.

(** ** Keys and values are well formed *)
Lemma word_source f s e src : source_ok f s e src -> word src /\ plain src.
Proof.
  intros [(i & _ & ->)|S]; [split; [apply word_alias|apply plain_alias]|].
  destruct f.
  - destruct S as [->|[(i & _ & ->)|[_ ->]]]; [split; chars|split; [apply word_alias|apply plain_alias]|split; chars].
  - destruct S as [_ [->| ->]]; split; chars.
Qed.
Lemma ok_word k v : settable k -> word v -> settable k /\ proper v. Proof. intros; split; [assumption|left; assumption]. Qed.
Lemma plain_level src : plain src -> settable (level_key src). Proof. intros P. split; [|reflexivity]. apply plain_app; [chars|exact P]. Qed.
Ltac wordy := apply ok_word; cbn [fst snd key];
  [first [apply plain_level; assumption | chars]
  |first [apply word_sci | apply word_str_int | assumption | chars]].
Lemma trigger_settings f s t : trigger_ok f s t -> settings_ok (trigger_writes f t).
Proof.
  destruct t as [src level slope dc h|src level timeout slope h|src level w c pos h|]; cbn [trigger_ok trigger_writes].
  - intros [S _]. destruct (word_source _ _ _ _ S) as [W P]. apply Forall_app. split; [constructor; [wordy|constructor; [wordy|constructor]]|].
    apply Forall_app. split.
    + destruct f; cbn [levels]; [constructor; [wordy|constructor]|]. destruct (str_eqb src (str "LINE")); [constructor|].
      destruct (str_eqb src (str "AUX")); (constructor; [wordy|constructor]).
    + constructor; [|constructor; [|constructor; [wordy|constructor]]].
      * destruct (slope_of slope); wordy.
      * destruct dc, f; wordy.
  - intros [S _]. destruct (word_source _ _ _ _ S) as [W P]. apply Forall_app. split.
    + destruct f; cbn [kind]; repeat (constructor; [wordy|]); constructor.
    + constructor; [wordy|constructor; [wordy|constructor; [wordy|constructor; [|constructor; [wordy|constructor]]]]].
      destruct (slope_of slope); wordy.
  - intros [S _]. destruct (word_source _ _ _ _ S) as [W P]. apply Forall_app. split.
    + destruct f; cbn [kind]; repeat (constructor; [wordy|]); constructor.
    + apply Forall_app. split; [constructor; [wordy|constructor; [wordy|constructor]]|]. apply Forall_app. split.
      * destruct w; cbn [widths]; repeat (constructor; [wordy|]); constructor.
      * constructor; [|constructor; [|constructor; [wordy|constructor]]].
        -- destruct (when_of c); wordy.
        -- destruct pos; wordy.
  - intros [].
Qed.
Lemma plain_key_of c s : plain (str s) -> settable (key_of (alias c) s).
Proof. intros P. split; [|destruct c; reflexivity]. apply plain_app; [apply plain_alias|]. constructor; [lia|exact P]. Qed.
Lemma writes_settings f s a : assignment_ok f s a -> settings_ok (writes f a).
Proof.
  intros [OK _]. destruct a as [c q v|c dc|c on|c t|c x|v|v|n|m|t]; cbn [writes].
  - constructor; [|constructor]. apply ok_word; cbn [fst snd]; [apply plain_key_of; destruct q; chars|apply word_sci].
  - constructor; [|constructor]. apply ok_word; cbn [fst snd]; [apply plain_key_of; chars|destruct dc; chars].
  - constructor; [|constructor]. apply ok_word; cbn [fst snd]; [|destruct on; chars].
    split; [|destruct f; reflexivity]. destruct f; cbn [active_key]; [apply plain_app; [chars|apply plain_alias]|].
    apply plain_app; [chars|]. apply plain_app; [apply plain_alias|chars].
  - constructor; [|constructor]. cbn [fst snd]. split; [destruct f; apply plain_key_of; chars|]. right. exists t. split; [reflexivity|].
    destruct OK as [_ F]. eapply Forall_impl; [|exact F]. cbv beta. tauto.
  - constructor; [|constructor]. apply ok_word; cbn [fst snd]; [apply plain_key_of; chars|destruct x; chars].
  - apply Forall_app. split; [destruct f; repeat (constructor; [wordy|]); constructor|]. constructor; [wordy|constructor].
  - apply Forall_app. split; [destruct f; repeat (constructor; [wordy|]); constructor|].
    constructor; [wordy|constructor; [wordy|constructor]].
  - apply Forall_app. split; [destruct f; repeat (constructor; [wordy|]); constructor|]. constructor; [wordy|constructor].
  - constructor; [|constructor]. destruct m; wordy.
  - eapply trigger_settings; exact OK.
Qed.

Lemma nodup_writes f a : NoDup (map fst (writes f a)).
Proof.
  assert (forall src, ~ In (level_key src) (map str ["TRIGGER:A:TYPE"; "TRIGGER:A:EDGE:SOURCE"; "TRIGGER:A:EDGE:SLOPE"; "TRIGGER:A:EDGE:COUPLING"; "TRIGGER:A:HOLDOFF:TIME";
    "TRIGGER:A:PULSE:CLASS"; "TRIGGER:A:TIMEOUT:SOURCE"; "TRIGGER:A:TIMEOUT:TIME"; "TRIGGER:A:TIMEOUT:POLARITY"; "TRIGGER:A:PULSEWIDTH:SOURCE";
    "TRIGGER:A:PULSEWIDTH:WIDTH"; "TRIGGER:A:PULSEWIDTH:LOWLIMIT"; "TRIGGER:A:PULSEWIDTH:HIGHLIMIT"; "TRIGGER:A:PULSEWIDTH:WHEN"; "TRIGGER:A:PULSEWIDTH:POLARITY"]%string)) as L.
  { intros src I. cbn [map] in I. repeat (destruct I as [I|I]; [discriminate I|]). destruct I. }
  assert (forall l1 l2 (x : pystr), NoDup (l1 ++ l2) -> ~ In x (l1 ++ l2) -> NoDup (l1 ++ x :: l2)) as ADD.
  { intros l1 l2 x ND NI. apply NoDup_Add with (a := x) (l := l1 ++ l2); [apply Add_app|]. split; assumption. }
  Ltac nd := repeat (apply NoDup_cons; [cbn [In]; intros I; repeat (destruct I as [I|I]; [discriminate I|]); destruct I|]); apply NoDup_nil.
  destruct a as [c q v|c dc|c on|c t|c x|v|v|n|m|t]; cbn [writes];
    try (cbn [map fst]; apply NoDup_cons; [intros []|apply NoDup_nil]).
  - destruct f; cbn; nd.
  - destruct f; cbn; nd.
  - destruct f; cbn; nd.
  - destruct t as [src level slope dc h|src level timeout slope h|src level w c pos h|]; cbn [trigger_writes].
    + destruct f; cbn [levels].
      * change (NoDup ([str "TRIGGER:A:TYPE"; str "TRIGGER:A:EDGE:SOURCE"] ++ level_key src :: [str "TRIGGER:A:EDGE:SLOPE"; str "TRIGGER:A:EDGE:COUPLING"; str "TRIGGER:A:HOLDOFF:TIME"])).
        apply ADD; [cbn [app]; nd|]. intros I. apply (L src). cbn [app In map] in I |- * . tauto.
      * destruct (str_eqb src (str "LINE")); [cbn; nd|]. destruct (str_eqb src (str "AUX")); [cbn; nd|].
        change (NoDup ([str "TRIGGER:A:TYPE"; str "TRIGGER:A:EDGE:SOURCE"] ++ level_key src :: [str "TRIGGER:A:EDGE:SLOPE"; str "TRIGGER:A:EDGE:COUPLING"; str "TRIGGER:A:HOLDOFF:TIME"])).
        apply ADD; [cbn [app]; nd|]. intros I. apply (L src). cbn [app In map] in I |- * . tauto.
    + destruct f; cbn [kind].
      * change (NoDup ([str "TRIGGER:A:TYPE"; str "TRIGGER:A:PULSE:CLASS"; str "TRIGGER:A:TIMEOUT:SOURCE"] ++ level_key src :: [str "TRIGGER:A:TIMEOUT:TIME"; str "TRIGGER:A:TIMEOUT:POLARITY"; str "TRIGGER:A:HOLDOFF:TIME"])).
        apply ADD; [cbn [app]; nd|]. intros I. apply (L src). cbn [app In map] in I |- * . tauto.
      * change (NoDup ([str "TRIGGER:A:TYPE"; str "TRIGGER:A:TIMEOUT:SOURCE"] ++ level_key src :: [str "TRIGGER:A:TIMEOUT:TIME"; str "TRIGGER:A:TIMEOUT:POLARITY"; str "TRIGGER:A:HOLDOFF:TIME"])).
        apply ADD; [cbn [app]; nd|]. intros I. apply (L src). cbn [app In map] in I |- * . tauto.
    + assert (forall l, incl l (map str ["TRIGGER:A:TYPE"; "TRIGGER:A:PULSE:CLASS"; "TRIGGER:A:PULSEWIDTH:SOURCE"]%string) -> NoDup l ->
        NoDup (l ++ level_key src :: map fst (widths w) ++ [str "TRIGGER:A:PULSEWIDTH:WHEN"; str "TRIGGER:A:PULSEWIDTH:POLARITY"; str "TRIGGER:A:HOLDOFF:TIME"])) as G.
      { intros l IN ND. apply ADD.
        - assert (forall x, In x l -> In x (map fst (widths w) ++ [str "TRIGGER:A:PULSEWIDTH:WHEN"; str "TRIGGER:A:PULSEWIDTH:POLARITY"; str "TRIGGER:A:HOLDOFF:TIME"]) -> False) as DJ.
          { intros x I1 I2. apply IN in I1. cbn [map In] in I1. destruct w; cbn in I2;
              destruct I1 as [<-|[<-|[<-|[]]]]; repeat (destruct I2 as [I2|I2]; [discriminate I2|]); destruct I2. }
          clear IN. induction ND as [|x l NI ND IH]; cbn [app].
          + destruct w; cbn; nd.
          + apply NoDup_cons; [|apply IH; intros y I; apply DJ; right; exact I]. intros I. apply in_app_or in I. destruct I as [I|I]; [contradiction|].
            apply (DJ x); [left; reflexivity|exact I].
        - intros I. apply (L src). apply in_app_or in I. destruct I as [I|I].
          + apply IN in I. cbn [map In] in I |- * . tauto.
          + destruct w; cbn [widths map fst key app In] in I |- * ; tauto. }
      destruct f; cbn [kind]; rewrite !map_app; cbn [map fst app key].
      * change (str "TRIGGER:A:TYPE" :: str "TRIGGER:A:PULSE:CLASS" :: str "TRIGGER:A:PULSEWIDTH:SOURCE" :: level_key src :: ?x)
          with ([str "TRIGGER:A:TYPE"; str "TRIGGER:A:PULSE:CLASS"; str "TRIGGER:A:PULSEWIDTH:SOURCE"] ++ level_key src :: x).
        apply G; [intros y; cbn [map In]; tauto|nd].
      * change (str "TRIGGER:A:TYPE" :: str "TRIGGER:A:PULSEWIDTH:SOURCE" :: level_key src :: ?x)
          with ([str "TRIGGER:A:TYPE"; str "TRIGGER:A:PULSEWIDTH:SOURCE"] ++ level_key src :: x).
        apply G; [intros y; cbn [map In]; tauto|nd].
    + constructor.
Qed.
