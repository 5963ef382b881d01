(** C61: opening a scope and its channels. *)
From Coq Require Import String ZArith Bool QArith Lia List.
Import ListNotations.
From Verif Require Import Base PyStr PyStrProofs ScpiModel ScpiProofs ScpiSpec ScpiProps IOModel EquipModel EquipSpec EquipProofs ConnectProofs TekModel ScopeModel ScopeSpec
  ScopeProofs ScopeUseModel ScopeUseSpec.
Local Open Scope Z_scope.
Local Open Scope list_scope.

(** ** The dictionary at a path of the nested result *)
Section Keys.
Context {V : Type}.
Notation dict := (list (pystr * tree V)).
Fixpoint dir (l : dict) (p : path) : option dict :=
  match p with
  | [] => Some l
  | k :: p' => match tfind l k with Some (Node l') => dir l' p' | _ => None end
  end.
Definition keys_at (p : path) (l : dict) (k : pystr) : Prop := match dir l p with Some g => In k (map fst g) | None => False end.
Lemma tset_keys (l : dict) k t x : In x (map fst (tset l k t)) <-> x = k \/ In x (map fst l).
Proof.
  induction l as [|[k' t'] l IH]; cbn [tset map fst In]; [intuition|].
  destruct (str_eqb k' k) eqn:E; cbn [map fst In].
  - apply str_eqb_eq in E. subst. intuition.
  - rewrite IH. intuition.
Qed.
Lemma keys_nil p k : ~ keys_at p [] k.
Proof. destruct p; cbn; auto. Qed.
Lemma keys_assign q v : forall p (l : dict) k, q <> [] ->
  keys_at p (tassign q v l) k <-> (exists r, q = p ++ k :: r) \/ (keys_at p l k /\ ~ prefix_of q p).
Proof.
  induction q as [|a q IH]; intros p l k N; [easy|]. destruct p as [|x p].
  - assert (K : keys_at [] (tassign (a :: q) v l) k <-> k = a \/ In k (map fst l)).
    { unfold keys_at. cbn [dir]. destruct q as [|b q]; [cbn [tassign]|rewrite tassign_cons]; apply tset_keys. }
    rewrite K. cbn [app]. split.
    + intros [->|J]; [left; exists q; reflexivity|]. right. split; [exact J|]. intros [r E]. discriminate E.
    + intros [[r E]|[J _]]; [left; injection E as <- _; reflexivity|right; exact J].
  - destruct q as [|b q].
    + cbn [tassign]. unfold keys_at. cbn [dir]. destruct (pystr_dec a x) as [->|NX].
      * rewrite tfind_tset_same. split; [intros []|]. intros [[r E]|[_ NP]]; [destruct p; discriminate E|]. apply NP. exists p. reflexivity.
      * rewrite tfind_tset_other by exact NX. split.
        -- intro J. right. split; [exact J|]. intros [r E]. injection E as E _. congruence.
        -- intros [[r E]|[J _]]; [injection E; intros; congruence|exact J].
    + rewrite tassign_cons. unfold keys_at. cbn [dir]. destruct (pystr_dec a x) as [->|NX].
      * rewrite tfind_tset_same. fold (keys_at p (tassign (b :: q) v (sub l x)) k). rewrite IH by discriminate. split.
        -- intros [[r E]|[J NP]]; [left; exists r; cbn [app]; congruence|right].
           split; [|intros [r E]; apply NP; exists r; cbn [app] in *; congruence].
           unfold sub in J. destruct (tfind l x) as [[?|l']|]; try (destruct (keys_nil _ _ J)); exact J.
        -- intros [[r E]|[J NP]]; [left; exists r; cbn [app] in E; congruence|right].
           split; [|intros [r E]; apply NP; exists r; cbn [app] in *; congruence].
           unfold sub. destruct (tfind l x) as [[?|l']|]; try contradiction. exact J.
      * rewrite tfind_tset_other by exact NX. split.
        -- intro J. right. split; [exact J|]. intros [r E]. injection E; intros; congruence.
        -- intros [[r E]|[J _]]; [injection E; intros; congruence|exact J].
Qed.
Lemma keys_state (rs : list (path * V)) p k : Forall (fun r => fst r <> []) rs -> conflict_free rs ->
  keys_at p (nested_state rs) k <-> exists r v, In (p ++ k :: r, v) rs.
Proof.
  induction rs as [|[q w] rs IH] using rev_ind; intros N C.
  - split; [intro J; destruct (keys_nil _ _ J)|intros (r & v & [])].
  - apply Forall_app in N. destruct N as [N Nq]. inversion Nq as [|? ? NQ _]; subst. cbn [fst] in NQ.
    assert (C' : conflict_free rs) by (intros a b Ia Ib; apply C; apply in_app_iff; left; assumption).
    rewrite nested_snoc, keys_assign, (IH N C') by exact NQ. split.
    + intros [[r ->]|[(r & v & J) _]]; [exists r, w; apply in_app_iff; right; left; reflexivity|].
      exists r, v. apply in_app_iff. left. exact J.
    + intros (r & v & J). apply in_app_iff in J. destruct J as [J|[E|[]]].
      * right. split; [exists r, v; exact J|]. intros [t E].
        assert (X : q = p ++ k :: r).
        { apply (C (q, w) (p ++ k :: r, v)); [apply in_app_iff; right; left; reflexivity|apply in_app_iff; left; exact J|].
          exists (t ++ k :: r). cbn [fst]. rewrite E, <- app_assoc. reflexivity. }
        assert (L := f_equal (@length _) X). assert (L2 := f_equal (@length _) E). rewrite !app_length in L, L2. cbn [length] in L. lia.
      * injection E as E _. left. exists r. exact E.
Qed.
End Keys.

(** ** The channels of a 4/5/6 series scope *)
Lemma channel_number_spec nm i : ~ In 10 nm -> channel_number nm = Some i <-> 0 <= i <= 9 /\ nm = str "CH" ++ str_int i.
Proof.
  intro NL. assert (DG : forall i, 0 <= i <= 9 -> str_int i = [i + 48]).
  { intros j J. assert (j = 0 \/ j = 1 \/ j = 2 \/ j = 3 \/ j = 4 \/ j = 5 \/ j = 6 \/ j = 7 \/ j = 8 \/ j = 9) as C by lia.
    repeat (destruct C as [->|C]; [reflexivity|]). subst. reflexivity. }
  split.
  - intro E.
    assert (X : exists dg, nm = [67; 72; dg] /\ is_digit dg = true /\ dg - 48 = i).
    { unfold channel_number in E.
      destruct nm as [|a [|b [|dg [|e [|e2 t]]]]]; try discriminate E;
        repeat match type of E with context [match ?z with _ => _ end] => is_var z; destruct z; try discriminate E end;
        try (match type of E with (if ?c then _ else _) = _ => destruct c eqn:B; [|discriminate E] end; injection E as <-);
        try (exfalso; apply NL; cbn; tauto);
        eexists; split; [reflexivity|]; split; [exact B|reflexivity]. }
    destruct X as (dg & -> & B & <-). unfold is_digit in B. split; [lia|]. rewrite DG by lia. cbn. do 3 f_equal. lia.
  - intros [R ->]. rewrite DG by exact R. cbn. assert (B : is_digit (i + 48) = true) by (unfold is_digit; lia). rewrite B. f_equal. lia.
Qed.
Lemma fold_channels {T} (g : list (pystr * T)) : forall l, NoDup l ->
  let res := fold_left (fun l kt => match channel_number (fst kt) with Some i => add_key l i | None => l end) g l in
  NoDup res /\ forall i, In i res <-> In i l \/ exists k, In k (map fst g) /\ channel_number k = Some i.
Proof.
  induction g as [|[k t] g IH]; intros l ND; cbn [fold_left map fst].
  - split; [exact ND|]. intro i. split; [auto|]. intros [J|(k & [] & _)]. exact J.
  - assert (H : forall l', NoDup l' -> (forall i, In i l' <-> In i l \/ channel_number k = Some i) ->
      let res := fold_left (fun l kt => match channel_number (fst kt) with Some i => add_key l i | None => l end) g l' in
      NoDup res /\ forall i, In i res <-> In i l \/ exists k', (k = k' \/ In k' (map fst g)) /\ channel_number k' = Some i).
    { intros l' ND' M. destruct (IH l' ND') as [A B]. split; [exact A|]. intro i. rewrite B, M. split.
      - intros [[J|J]|(k' & J & E)]; [left; exact J|right; exists k; auto|right; exists k'; auto].
      - intros [J|(k' & [->|J] & E)]; [auto|auto|right; exists k'; auto]. }
    destruct (channel_number k) as [i|] eqn:CN; apply H.
    + unfold add_key. destruct (existsb (Z.eqb i) l) eqn:X; [exact ND|]. apply NoDup_rev in ND. rewrite <- (rev_involutive (l ++ [i])). apply NoDup_rev.
      rewrite rev_app_distr. cbn [rev app]. constructor; [|exact ND]. intro J. apply in_rev in J.
      assert (existsb (Z.eqb i) l = true) by (apply existsb_exists; exists i; split; [exact J|apply Z.eqb_refl]). congruence.
    + intro j. unfold add_key. destruct (existsb (Z.eqb i) l) eqn:X.
      * split; [auto|]. intros [J|E]; [exact J|]. injection E as <-. apply existsb_exists in X. destruct X as (y & J & E). apply Z.eqb_eq in E. subst. exact J.
      * rewrite in_app_iff. cbn [In]. split; [intros [J|[->|[]]]; auto|]. intros [J|E]; [auto|]. injection E as <-. auto.
    + exact ND.
    + intro j. split; [auto|]. intros [J|E]; [exact J|discriminate E].
Qed.
(** The channels found are those named in the reply to DISPLAY?. *)
Theorem C61_channels : forall settings cs,
  settings <> [] -> Forall well_formed settings -> last_text_ok settings -> ScpiSpec.reply [] settings cs ->
  conflict_free (map (fun s => (map upper (fst s), snd s)) settings) ->
  (exists s k rest, In s settings /\ map upper (fst s) = str "DISPLAY" :: str "GLOBAL" :: k :: rest) ->
  exists chs, channels_456 (join 59 cs) = Ok chs /\ NoDup chs /\ forall i, In i chs <-> displayed settings i.
Proof.
  intros settings cs N W L R C (s0 & k0 & rest0 & J0 & E0).
  set (rs := map (fun s : setting => (map upper (fst s), snd s)) settings) in * .
  assert (SD : Forall2 (stored (fun s : pystr => s) None) settings rs).
  { unfold rs. clear. induction settings as [|[p v] l IH]; [constructor|]. cbn [map]. constructor; [|exact IH].
    exists None. cbn [fst snd]. split; [|reflexivity]. clear. induction p; cbn [map]; constructor. assumption. }
  assert (A : assignments (fun s : pystr => s) None (join 59 cs) = Ok rs) by exact (assignments_reply _ None _ _ _ R W N (last_text_last _ N L) SD).
  assert (NE : Forall (fun r : path * pystr => fst r <> []) rs) by (eapply assignments_nonnil; exact A).
  assert (KS := fun p k => keys_state rs p k NE C).
  assert (D0 : keys_at [str "DISPLAY"; str "GLOBAL"] (nested_state rs) k0).
  { apply KS. exists rest0, (snd s0). cbn [app]. unfold rs. apply in_map_iff. exists s0. rewrite E0. split; [reflexivity|exact J0]. }
  unfold channels_456. rewrite parse_nested_eq, A. cbn [bind]. unfold keys_at in D0. cbn [dir] in D0. unfold subtree.
  assert (KS' := KS [str "DISPLAY"; str "GLOBAL"]). unfold keys_at in KS'. cbn [dir] in KS'.
  destruct (tfind (nested_state rs) (str "DISPLAY")) as [[?|d1]|]; try contradiction. cbn [bind].
  destruct (tfind d1 (str "GLOBAL")) as [[?|g]|]; try contradiction. cbn [bind].
  eexists. split; [reflexivity|].
  destruct (fold_channels g [] (NoDup_nil _)) as [ND M]. split; [exact ND|]. intro i. rewrite M.
  assert (NL : forall k, In k (map fst g) -> ~ In 10 k).
  { intros k J. apply KS' in J. destruct J as (r & v & J). unfold rs in J. apply in_map_iff in J. destruct J as (s & E & Js). injection E as E _.
    rewrite Forall_forall in W. destruct (W s Js) as (_ & NM & _).
    assert (Jk : In k (map upper (fst s))) by (rewrite E; cbn; tauto). apply in_map_iff in Jk. destruct Jk as (k1 & <- & Jk).
    rewrite Forall_forall in NM. destruct (NM k1 Jk) as (_ & _ & _ & _ & _ & NN). clear -NN. intro J. apply NN.
    unfold upper in J. apply in_map_iff in J. destruct J as (c & E & J).
    unfold upper_char, is_lower in E. destruct ((97 <=? c) && (c <=? 122)) eqn:B; [lia|]. subst. exact J. }
  split.
  - intros [[]|(k & J & E)]. apply channel_number_spec in E; [|exact (NL k J)]. destruct E as [RG ->]. split; [exact RG|].
    apply KS' in J. destruct J as (r & v & J). unfold rs in J. apply in_map_iff in J. destruct J as (s & E & Js). injection E as E _.
    exists s, r. split; [exact Js|exact E].
  - intros [RG (s & r & Js & E)]. right. assert (J : In (str "CH" ++ str_int i) (map fst g)).
    { apply KS'. exists r, (snd s). cbn [app]. unfold rs. apply in_map_iff. exists s. rewrite E. split; [reflexivity|exact Js]. }
    exists (str "CH" ++ str_int i). split; [exact J|]. apply channel_number_spec; [exact (NL _ J)|]. split; [exact RG|reflexivity].
Qed.
Print Assumptions C61_channels.

(** ** Opening *)
Section Open.
Context {D : Type}.
Variable dev : device D.
Variable fl : Q -> Q.
Variable digit : Z -> bool.
Lemma bind_inv {X Y} (m : io D X) (k : X -> io D Y) w y w' : iobind m k w = (Ok y, w') -> exists x w1, m w = (Ok x, w1) /\ k x w1 = (Ok y, w').
Proof. unfold iobind. destruct (m w) as [[x|e] w1]; [|discriminate]. intro E. exists x, w1. auto. Qed.
Lemma send_inv c r w w' : w_inst w = Some r -> send dev c w = (Ok tt, w') -> w_inst w' = Some r /\ w_log w' = w_log w ++ [Wrote r c].
Proof. intros I E. destruct (send_spec dev _ _ _ _ _ I E) as [[SI _] [[_ L]|(e & X & _)]]; [split; [congruence|exact L]|discriminate X]. Qed.
Lemma ask_inv c r w s w' : w_inst w = Some r -> ask dev c w = (Ok s, w') -> exists a, s = strip a /\ w_inst w' = Some r /\ w_log w' = w_log w ++ [Queried r c a].
Proof.
  intros I E. destruct (ask_spec dev _ _ _ _ _ I E) as [[SI _] [(a & X & L)|(e & X & _)]]; [|discriminate X].
  injection X as ->. exists a. split; [reflexivity|]. split; [congruence|exact L].
Qed.
Lemma int_inv k r w n w' : w_inst w = Some r -> get_int dev k w = (Ok n, w') -> exists a, parse_int (strip a) = Some n /\ w_inst w' = Some r /\ w_log w' = w_log w ++ [Queried r (k ++ str "?") a].
Proof.
  intros I E. unfold get_int in E. apply bind_inv in E. destruct E as (s & w1 & EA & E). destruct (ask_inv _ _ _ _ _ I EA) as (a & -> & I1 & L1).
  unfold lift, to_int in E. injection E as E <-. destruct (parse_int (strip a)) as [m|] eqn:P; [|discriminate E]. injection E as ->. exists a. auto.
Qed.
Lemma float_inv k r w n w' : w_inst w = Some r -> get_float dev fl k w = (Ok n, w') -> exists a, w_inst w' = Some r /\ w_log w' = w_log w ++ [Queried r (k ++ str "?") a].
Proof.
  intros I E. unfold get_float in E. apply bind_inv in E. destruct E as (s & w1 & EA & E). destruct (ask_inv _ _ _ _ _ I EA) as (a & -> & I1 & L1).
  unfold lift in E. injection E as _ <-. exists a. auto.
Qed.
Lemma construct_inv address w w' : construct dev address w = (Ok tt, w') -> w_inst w' = Some (w_next w) /\ w_log w' = w_log w ++ [Opened (w_next w)].
Proof.
  intro C. unfold construct, iobind, set_inst, open_resource, raise in C. cbn [w_dev w_next w_log] in C.
  destruct (dev_open dev (w_dev w) address) as [[[]|e] d]; cbn [snd fst] in C; try discriminate. injection C as <-. split; reflexivity.
Qed.
Lemma lift_inv {X} (x : result X) (w w' : world D) y : lift x w = (Ok y, w') -> x = Ok y /\ w' = w.
Proof. intro E. injection E as -> <-. auto. Qed.
Lemma supports_check f model rest : model_name model ->
  check_identity digit (match f with F4000 => re_model4000 | F456 => re_model456 end) (identity_of model rest) = Ok tt -> supports digit f model.
Proof.
  intros [NC NL] E. destruct f; rewrite check_model in E by exact NC; cbn [supports];
    [apply (family4000 digit model NL)|apply (family456 digit model NL)];
    match type of E with (if ?b then _ else _) = _ => destruct b; [reflexivity|discriminate E] end.
Qed.
Lemma check_fails f model rest : model_name model -> ~ supports digit f model ->
  check_identity digit (match f with F4000 => re_model4000 | F456 => re_model456 end) (identity_of model rest) = Err ValueError.
Proof.
  intros [NC NL] N. destruct f; rewrite check_model by exact NC; cbn [supports] in N.
  - destruct (matches digit re_model4000 model) eqn:M; [|reflexivity]. apply (family4000 digit model NL) in M. contradiction.
  - destruct (matches digit re_model456 model) eqn:M; [|reflexivity]. apply (family456 digit model NL) in M. contradiction.
Qed.
Lemma finds_in l lookup name : (forall i, lookup i = if existsb (Z.eqb i) l then Ok (alias (name i)) else Err KeyError) -> finds lookup name (fun i => In i l).
Proof.
  intros H i. rewrite H. assert (X : existsb (Z.eqb i) l = true <-> In i l).
  { rewrite existsb_exists. split; [intros (y & J & E); apply Z.eqb_eq in E; subst; exact J|intro J; exists i; split; [exact J|apply Z.eqb_refl]]. }
  destruct (existsb (Z.eqb i) l); split; intro J; try reflexivity; exfalso; [apply J, X; reflexivity|].
  apply X in J. discriminate J.
Qed.
Lemma finds_iff lookup name P Q : (forall i, P i <-> Q i) -> finds lookup name P -> finds lookup name Q.
Proof. intros H F i. destruct (F i) as [A B]. split; intro J; [apply A, H, J|apply B; intro K; apply J, H, K]. Qed.
End Open.
Local Ltac inv_ := repeat match goal with
  | H : iobind _ _ _ = (Ok _, _) |- _ => apply bind_inv in H; let x := fresh "x" in let w := fresh "w" in let E := fresh "E" in destruct H as (x & w & E & H)
  | H : send _ _ _ = (Ok ?x, _) |- _ => destruct x; eapply send_inv in H; [|eassumption]; destruct H as [? ?]
  | H : ask _ _ _ = (Ok _, _) |- _ => eapply ask_inv in H; [|eassumption]; destruct H as (? & -> & ? & ?)
  | H : get_int _ _ _ = (Ok _, _) |- _ => eapply int_inv in H; [|eassumption]; destruct H as (? & ? & ? & ?)
  | H : get_float _ _ _ _ = (Ok _, _) |- _ => eapply float_inv in H; [|eassumption]; destruct H as (? & ? & ?)
  | H : lift _ _ = (Ok _, _) |- _ => apply lift_inv in H; destruct H as [? ->]
  | H : construct _ _ _ = (Ok ?x, _) |- _ => destruct x; apply construct_inv in H; destruct H as [? ?]
  end.

(** A 4000 series scope: what was said, and which channels there are. *)
Theorem C61_open_4000 : forall D (dev : device D) fl digit address w s w', new_scope dev fl digit F4000 address w = (Ok s, w') ->
  let r := w_next w in
  exists id na nd ax bw n m,
    w_log w' = w_log w ++ [Opened r; Queried r (str "*IDN?") id; Wrote r (str "HEADER OFF"); Wrote r (str "VERBOSE ON");
      Queried r (str "CONFIGURATION:ANALOG:NUMCHANNELS?") na; Queried r (str "CONFIGURATION:DIGITAL:NUMCHANNELS?") nd;
      Queried r (str "CONFIGURATION:AUXIN?") ax; Queried r (str "CONFIGURATION:ANALOG:BANDWIDTH?") bw] /\
    w_inst w' = Some r /\
    (forall model rest, strip id = identity_of model rest -> model_name model -> supports digit F4000 model) /\
    parse_int (strip na) = Some n /\ parse_int (strip nd) = Some m /\
    finds (ch s) Analog (fun i => 1 <= i <= n) /\ finds (d s) Digital (fun i => 0 <= i < m).
Proof.
  intros D dev fl digit address w s w' E r. unfold new_scope, init_channels, init_4000 in E. inv_. unfold ret in E. injection E as <- <-.
  do 7 eexists. split.
  { repeat match goal with H : w_log _ = w_log _ ++ _ |- _ => rewrite H; clear H end. rewrite <- !app_assoc. reflexivity. }
  split; [assumption|]. split.
  { intros model rest EI MN. match goal with H : check_identity _ _ _ = Ok ?u |- _ => destruct u; rewrite EI in H; exact (supports_check digit F4000 model rest MN H) end. }
  split; [eassumption|]. split; [eassumption|]. split.
  - eapply finds_iff; [|eapply (finds_in _ _ _); intro; unfold ch, d; cbn [channels digitals]; reflexivity]. intro i. apply zrange_in.
  - eapply finds_iff; [|eapply (finds_in _ _ _); intro; unfold ch, d; cbn [channels digitals]; reflexivity]. intro i. cbv beta. rewrite zrange_in. lia.
Qed.
Print Assumptions C61_open_4000.
(** A 4/5/6 series scope: the channels are those of the reply to DISPLAY?, read
    with headers on; headers are off afterwards. *)
Theorem C61_open_456 : forall D (dev : device D) fl digit address w s w', new_scope dev fl digit F456 address w = (Ok s, w') ->
  let r := w_next w in
  exists id display bw,
    w_log w' = w_log w ++ [Opened r; Queried r (str "*IDN?") id; Wrote r (str "HEADER ON"); Wrote r (str "VERBOSE ON");
      Queried r (str "DISPLAY?") display; Wrote r (str "HEADER OFF"); Queried r (str "CONFIGURATION:ANALOG:BANDWIDTH?") bw] /\
    w_inst w' = Some r /\
    (forall model rest, strip id = identity_of model rest -> model_name model -> supports digit F456 model) /\
    (forall settings cs, strip display = join 59 cs -> settings <> [] -> Forall well_formed settings -> last_text_ok settings ->
       ScpiSpec.reply [] settings cs -> conflict_free (map (fun s => (map upper (fst s), snd s)) settings) ->
       (exists s k rest, In s settings /\ map upper (fst s) = str "DISPLAY" :: str "GLOBAL" :: k :: rest) ->
       finds (ch s) Analog (displayed settings)) /\
    (forall i, d s i = Err KeyError).
Proof.
  intros D dev fl digit address w s w' E r. unfold new_scope, init_channels, init_456 in E. inv_. unfold ret in E. injection E as <- <-.
  do 3 eexists. split.
  { repeat match goal with H : w_log _ = w_log _ ++ _ |- _ => rewrite H; clear H end. rewrite <- !app_assoc. reflexivity. }
  split; [assumption|]. split.
  { intros model rest EI MN. match goal with H : check_identity _ _ _ = Ok ?u |- _ => destruct u; rewrite EI in H; exact (supports_check digit F456 model rest MN H) end. }
  split; [|reflexivity]. intros settings cs EJ N W L R C EX.
  destruct (C61_channels settings cs N W L R C EX) as (chs & EC & ND & M).
  match goal with H : channels_456 _ = Ok _ |- _ => rewrite EJ, EC in H; injection H as <- end.
  eapply finds_iff; [|apply (finds_in chs); reflexivity]. exact M.
Qed.
Print Assumptions C61_open_456.
(** Another instrument is rejected before anything is sent to it; the resource
    stays open until the object goes away. *)
Theorem C61_rejected : forall D (dev : device D) fl digit f address w d1 reply d2 model rest,
  dev_open dev (w_dev w) address = (Ok true, d1) -> dev_query dev d1 (str "*IDN?") = (Ok reply, d2) ->
  strip reply = identity_of model rest -> model_name model -> ~ supports digit f model ->
  let r := w_next w in
  exists w', new_scope dev fl digit f address w = (Err ValueError, w') /\
    w_log w' = w_log w ++ [Opened r; Queried r (str "*IDN?") reply] /\ w_inst w' = Some r.
Proof.
  intros D dev fl digit f address w d1 reply d2 model rest EO EQ EI MN NS r.
  pose proof (check_fails digit f model rest MN NS) as CF.
  unfold new_scope, construct, iobind, set_inst, open_resource. cbn [w_dev w_next w_log w_inst]. rewrite EO. cbn [fst snd w_dev w_next w_log w_inst].
  destruct f; cbn [init_channels]; unfold init_4000, init_456, ask, iobind, get_inst, query_resource, ret, lift; cbn [w_dev w_next w_log w_inst]; rewrite EQ, EI, CF;
    (eexists; split; [reflexivity|]); cbn [w_log w_inst]; rewrite <- app_assoc; split; reflexivity.
Qed.
Print Assumptions C61_rejected.

(** *** Witnesses *)
(** An instrument answering the questions asked at construction. *)
Definition instrument (identity : pystr) : device unit := Device (fun d _ => (Ok true, d)) (fun d => (Ok tt, d)) (fun d _ => (Ok tt, d))
  (fun d c => (Ok (if str_eqb c (str "*IDN?") then identity ++ [10]
                   else if str_eqb c (str "DISPLAY?") then str ":DISPLAY:GLOBAL:CH1:STATE 1;:display:GLOBAL:Ch3:STATE 0;:DISPLAY:STYLE ""a;b""" ++ [10]
                   else if str_eqb c (str "CONFIGURATION:ANALOG:BANDWIDTH?") then str "1.0E+9" ++ [10]
                   else if str_eqb c (str "CONFIGURATION:ANALOG:NUMCHANNELS?") then str "4" ++ [10] else str "16" ++ [10]), d))
  (fun d => (Ok [], d)).
Definition nothing : world unit := World tt 5 [] None.
Example C61_met_4000 : exists s w', new_scope (instrument (identity_of (str "MDO4104B") (str "1,2"))) (fun q => q) is_digit F4000 (str "a") nothing = (Ok s, w') /\
  ch s 4 = Ok (str "CH4") /\ ch s 0 = Err KeyError /\ d s 15 = Ok (str "D15") /\ d s 16 = Err KeyError.
Proof. eexists. eexists. split; [vm_compute; reflexivity|]. vm_compute. auto. Qed.
Example C61_met_456 : exists s w', new_scope (instrument (identity_of (str "MSO56") (str "1,2"))) (fun q => q) is_digit F456 (str "a") nothing = (Ok s, w') /\
  ch s 1 = Ok (str "CH1") /\ ch s 2 = Err KeyError /\ ch s 3 = Ok (str "CH3") /\ d s 0 = Err KeyError.
Proof. eexists. eexists. split; [vm_compute; reflexivity|]. vm_compute. auto. Qed.
Definition ex_display : list setting :=
  [([str "DISPLAY"; str "GLOBAL"; str "CH1"; str "STATE"], str "1"); ([str "display"; str "GLOBAL"; str "Ch3"; str "STATE"], str "0");
   ([str "DISPLAY"; str "STYLE"], str """a;b""")].
Definition ex_display_text : list pystr :=
  [str ":DISPLAY:GLOBAL:CH1:STATE 1"; str ":display:GLOBAL:Ch3:STATE 0"; str ":DISPLAY:STYLE ""a;b"""].
Example C61_met_display : ex_display <> [] /\ Forall well_formed ex_display /\ last_text_ok ex_display /\ ScpiSpec.reply [] ex_display ex_display_text /\
  conflict_free (map (fun s => (map upper (fst s), snd s)) ex_display) /\
  (exists s k rest, In s ex_display /\ map upper (fst s) = str "DISPLAY" :: str "GLOBAL" :: k :: rest) /\ displayed ex_display 3 /\ ~ displayed ex_display 2.
Proof.
  split; [discriminate|]. split.
  { repeat (constructor; [split; [discriminate|]; split; [|reflexivity]; repeat (constructor; [ScpiProps.is_name|]); constructor|]). constructor. }
  split.
  { intros l' s E v X. change ex_display with (removelast ex_display ++ [([str "DISPLAY"; str "STYLE"], str """a;b""")]) in E.
    apply app_inj_tail in E. destruct E as [_ <-]. cbn [snd] in X. apply (f_equal (fun s => last s 0)) in X. rewrite last_last in X. discriminate. }
  split.
  { apply (reply_cons [] _ _ (str ":DISPLAY:GLOBAL:CH1:STATE")); [apply (absolute [] [str "DISPLAY"; str "GLOBAL"; str "CH1"; str "STATE"])|].
    apply (reply_cons _ _ _ (str ":display:GLOBAL:Ch3:STATE")); [apply (absolute _ [str "display"; str "GLOBAL"; str "Ch3"; str "STATE"])|].
    apply (reply_cons _ _ _ (str ":DISPLAY:STYLE")); [apply (absolute _ [str "DISPLAY"; str "STYLE"])|]. constructor. }
  split.
  { intros a b [<-|[<-|[<-|[]]]] [<-|[<-|[<-|[]]]] [r E]; cbn [fst] in *; try reflexivity; discriminate. }
  split. { do 3 eexists. split; [left; reflexivity|]. reflexivity. }
  split. { split; [lia|]. do 2 eexists. split; [right; left; reflexivity|]. reflexivity. }
  intros [_ (s & rest & [<-|[<-|[<-|[]]]] & E)]; discriminate E.
Qed.
Example C61_met_rejected : exists d1 reply d2 model rest, let i := instrument (identity_of (str "MSO56") (str "1,2")) in
  dev_open i (w_dev nothing) (str "a") = (Ok true, d1) /\ dev_query i d1 (str "*IDN?") = (Ok reply, d2) /\
  strip reply = identity_of model rest /\ model_name model /\ ~ supports is_digit F4000 model.
Proof.
  exists tt, (identity_of (str "MSO56") (str "1,2") ++ [10]), tt, (str "MSO56"), (str "1,2"). split; [reflexivity|]. split; [reflexivity|].
  split; [vm_compute; reflexivity|]. assert (M : model_name (str "MSO56")).
  { split; [cbn; intuition discriminate|]. intros m' E. apply (f_equal (fun s => last s 0)) in E. rewrite last_last in E. discriminate. }
  split; [exact M|]. intro S4. destruct M as [_ NL]. apply (family4000 _ _ NL) in S4. vm_compute in S4. discriminate.
Qed.
